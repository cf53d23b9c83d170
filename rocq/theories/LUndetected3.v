(** Lemmas for C92: which differences the CRC does not see *)
From Coq Require Import ZifyBool ZifyNat Lia.
From Verif Require Import SUndetected SCrc LBits LCrc LCrcPoly LUndetected.
Open Scope list_scope.
Open Scope Z_scope.

Lemma same_register p w : length w = length p ->
  (calculate_crc w = calculate_crc p <-> crc_bits 0 (diff (bytes_bits p) (bytes_bits w)) = 0).
Proof.
  intros L. pose proof (crc_bits_linear (bytes_bits p) (bytes_bits w) 65535 65535) as K.
  rewrite !bytes_bits_length, L in K. specialize (K eq_refl). rewrite Z.lxor_nilpotent in K. rewrite K.
  rewrite Z.lxor_eq_0_iff. rewrite !calculate_crc_split. unfold crc16.
  pose proof (Z.div_mod (crc_bits 65535 (bytes_bits p)) 256 ltac:(discriminate)) as D1.
  pose proof (Z.div_mod (crc_bits 65535 (bytes_bits w)) 256 ltac:(discriminate)) as D2.
  split; [|intros ->; reflexivity]. intros E. assert (E1 : crc_bits 65535 (bytes_bits w) / 256 = crc_bits 65535 (bytes_bits p) / 256) by congruence.
  assert (E2 : crc_bits 65535 (bytes_bits w) mod 256 = crc_bits 65535 (bytes_bits p) mod 256) by congruence.
  rewrite D1, D2, E1, E2. reflexivity.
Qed.
Lemma halve q m : pprod q generator = 2 * m -> exists q', pprod q' generator = m.
Proof.
  destruct q as [|b q _] using rev_ind; intros E.
  - exists []. cbn [pprod] in *. lia.
  - rewrite pprod_snoc in E. destruct b.
    + exfalso. assert (T : Z.testbit (Z.lxor (2 * pprod q generator) generator) 0 = Z.testbit (2 * m) 0) by (rewrite E; reflexivity).
      rewrite Z.lxor_spec, !Z.testbit_even_0 in T. discriminate T.
    + rewrite Z.lxor_0_r in E. exists q. lia.
Qed.
Lemma halve_n n : forall q m, pprod q generator = m * 2 ^ Z.of_nat n -> exists q', pprod q' generator = m.
Proof.
  induction n as [|n IH]; intros q m E.
  - exists q. rewrite E. change (2 ^ Z.of_nat 0) with 1. lia.
  - rewrite Nat2Z.inj_succ, Z.pow_succ_r in E by lia. destruct (halve q (m * 2 ^ Z.of_nat n)) as (q' & E'); [rewrite E; ring|].
    exact (IH q' m E').
Qed.
Lemma double_n n : forall q, pprod (q ++ repeat false n) generator = pprod q generator * 2 ^ Z.of_nat n.
Proof.
  induction n as [|n IH]; intros q.
  - cbn [repeat]. rewrite app_nil_r. change (2 ^ Z.of_nat 0) with 1. lia.
  - change (repeat false (S n)) with ([false] ++ repeat false n). rewrite app_assoc, IH, pprod_snoc, Z.lxor_0_r.
    rewrite Nat2Z.inj_succ, Z.pow_succ_r by lia. ring.
Qed.
Lemma division_zero l : exists q, bits_val l * 65536 = Z.lxor (pprod q generator) (crc_bits 0 l).
Proof.
  induction l as [|b l IH] using rev_ind.
  - exists []. reflexivity.
  - destruct IH as [q IH]. set (x := crc_bits 0 l) in *.
    exists (q ++ [xorb (Z.testbit x 15) b]).
    rewrite bits_val_snoc, pprod_snoc, crc_bits_app. fold x. cbn [crc_bits fold_left].
    assert (R : 0 <= x < 65536) by (apply crc_bits_range; lia).
    rewrite Z.lxor_assoc, <- (crc_bit_division x b R). rewrite <- Z.lxor_assoc, lxor_double, <- IH. rewrite odd_double.
    change 65536 with (2 ^ 16). rewrite <- !Z.shiftl_mul_pow2 by lia. rewrite Z.shiftl_lxor.
    apply f_equal2; [rewrite !Z.shiftl_mul_pow2 by lia; lia | destruct b; reflexivity].
Qed.
Lemma multiple_iff l : crc_bits 0 l = 0 <-> exists q, bits_val l = pprod q generator.
Proof.
  destruct (division_zero l) as [q E]. split.
  - intros C. rewrite C, Z.lxor_0_r in E. destruct (halve_n 16 q (bits_val l)) as (q' & E'); [rewrite <- E; reflexivity|].
    exists q'. symmetry. exact E'.
  - intros (q' & E'). apply (remainder_unique (bits_val l * 65536)).
    + split; [change (2 ^ 16) with 65536; apply crc_bits_range; lia | exists q; exact E].
    + split; [lia|]. exists (q' ++ repeat false 16). rewrite double_n, E', Z.lxor_0_r. reflexivity.
Qed.
Lemma same_crc_iff p w : length w = length p ->
  (calculate_crc w = calculate_crc p <-> exists q, bits_val (diff (bytes_bits p) (bytes_bits w)) = pprod q generator).
Proof. intros L. rewrite (same_register p w L). apply multiple_iff. Qed.
Lemma diff_invol a : forall b, length a = length b -> diff a (diff a b) = b.
Proof.
  induction a as [|x a IH]; intros [|y b] L; try discriminate L; [reflexivity|]. cbn [diff]. injection L as L. rewrite IH by exact L.
  destruct x, y; reflexivity.
Qed.
Lemma diff_len a : forall b, length a = length b -> length (diff a b) = length a.
Proof. induction a as [|x a IH]; intros [|y b] L; try discriminate L; [reflexivity|]. cbn [diff length] in *. rewrite IH; lia. Qed.
Lemma four_flipped p k : Forall is_byte p -> (k + 17 <= 8 * length p)%nat ->
  exists w, Forall is_byte w /\ length w = length p /\ w <> p /\ calculate_crc w = calculate_crc p
  /\ diff (bytes_bits p) (bytes_bits w) = flips k (8 * length p).
Proof.
  intros F L. set (e := flips k (8 * length p)).
  assert (Le : length e = (8 * length p)%nat) by (unfold e, flips; rewrite !app_length, !repeat_length; cbn [length]; lia).
  set (d := diff (bytes_bits p) e).
  assert (Ld : length d = (8 * length p)%nat) by (unfold d; rewrite diff_len; rewrite bytes_bits_length; lia).
  assert (D : diff (bytes_bits p) (bytes_bits (bits_bytes d)) = e).
  { rewrite (bytes_bits_bits_bytes _ d Ld). unfold d. apply diff_invol. rewrite bytes_bits_length. lia. }
  exists (bits_bytes d). refine (conj (bits_bytes_is_byte d) (conj (bits_bytes_length _ d Ld) (conj _ (conj _ D)))).
  - intros E. rewrite E in D.
    assert (S : forall l, diff l l = repeat false (length l)) by (induction l as [|[] l IH]; [reflexivity| |]; cbn [diff xorb length repeat]; rewrite IH; reflexivity).
    rewrite S, bytes_bits_length in D.
    assert (X : In true e) by (unfold e, flips; apply in_or_app; right; left; reflexivity). rewrite <- D in X.
    apply repeat_spec in X. discriminate X.
  - apply same_register; [apply (bits_bytes_length _ d Ld)|]. rewrite D. unfold e, flips. rewrite !crc_bits_app, crc_zeros.
    match goal with |- crc_bits ?x _ = 0 => replace x with 0 by (vm_compute; reflexivity) end. apply crc_zeros.
Qed.
Lemma flips_four k n : (k + 17 <= n)%nat -> length (flips k n) = n /\ weight (flips k n) = 4%nat
  /\ forall i, nth i (flips k n) false = true <-> i = k \/ i = (k + 4)%nat \/ i = (k + 11)%nat \/ i = (k + 16)%nat.
Proof.
  intros L. unfold flips. split; [rewrite !app_length, !repeat_length; cbn [length]; lia|].
  assert (Z0 : forall m, filter (fun b : bool => b) (repeat false m) = []) by (induction m; [reflexivity | assumption]).
  split; [unfold weight; rewrite !filter_app, !Z0; reflexivity|]. intros i.
  assert (R : forall m j, nth j (repeat false m) false = false) by (induction m; intros [|j]; cbn; auto).
  destruct (Nat.lt_ge_cases i k) as [C|C].
  - rewrite app_nth1 by (rewrite repeat_length; exact C). rewrite R. split; [discriminate | lia].
  - rewrite app_nth2 by (rewrite repeat_length; exact C). rewrite repeat_length. remember (i - k)%nat as j eqn:Ej.
    replace i with (k + j)%nat by lia. clear Ej C.
    do 17 (destruct j as [|j]; [cbn [app nth]; split; [try discriminate; lia | intros H; try reflexivity; exfalso; lia]|]).
    cbn [app nth]. rewrite R. split; [discriminate | lia].
Qed.
