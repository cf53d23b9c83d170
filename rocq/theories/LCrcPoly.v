(** The CRC as a polynomial remainder, and the table driven algorithm. *)
From Coq Require Import ZifyBool ZifyNat.
From Verif Require Export LCrc SCrc MCrcTable.
Ltac Zify.zify_post_hook ::= Z.div_mod_to_equations.

Lemma zlen_cons {A} (x : A) l : zlen (x :: l) = zlen l + 1.
Proof. unfold zlen. cbn [length]. lia. Qed.
Lemma zlen_nonneg {A} (l : list A) : 0 <= zlen l.
Proof. unfold zlen. lia. Qed.
Lemma zlen_snoc {A} (x : A) l : zlen (l ++ [x]) = zlen l + 1.
Proof. unfold zlen. rewrite app_length. cbn [length]. lia. Qed.

Lemma lxor_double a b : Z.lxor (2 * a) (2 * b) = 2 * Z.lxor a b.
Proof.
  replace (2 * a) with (Z.shiftl a 1) by (rewrite Z.shiftl_mul_pow2; lia).
  replace (2 * b) with (Z.shiftl b 1) by (rewrite Z.shiftl_mul_pow2; lia).
  rewrite <- Z.shiftl_lxor, Z.shiftl_mul_pow2; lia.
Qed.

Lemma pprod_snoc q g b : pprod (q ++ [b]) g = Z.lxor (2 * pprod q g) (if b then g else 0).
Proof.
  induction q as [|x q IH].
  - cbn [app pprod]. change (zlen (@nil bool)) with 0. destruct b; rewrite ?Z.lxor_0_r, ?Z.lxor_0_l; lia.
  - cbn [app pprod]. rewrite IH, <- lxor_double, zlen_snoc, Z.lxor_assoc. f_equal.
    destruct x; [|reflexivity]. rewrite Z.pow_add_r by (pose proof (zlen_nonneg q); lia). lia.
Qed.

Lemma bits_val_acc_snoc l b : forall a, bits_val_acc a (l ++ [b]) = 2 * bits_val_acc a l + (if b then 1 else 0).
Proof. induction l as [|x l IH]; intros a; cbn [app bits_val_acc]; [reflexivity | apply IH]. Qed.
Lemma bits_val_snoc l b : bits_val (l ++ [b]) = 2 * bits_val l + (if b then 1 else 0).
Proof. apply bits_val_acc_snoc. Qed.

(** one step of the register is one step of the division *)
Lemma crc_bit_division x (b : bool) : 0 <= x < 65536 ->
  Z.lxor (2 * x) (if b then 65536 else 0)
  = Z.lxor (if xorb (Z.testbit x 15) b then generator else 0) (crc_bit x b).
Proof.
  intros L.
  assert (K : forall b : bool, sweep 16 0 (fun x => Z.lxor (2 * x) (if b then 65536 else 0)
    =? Z.lxor (if xorb (Z.testbit x 15) b then generator else 0) (crc_bit x b)) = true)
    by (intros []; vm_compute; reflexivity).
  pose proof (sweep16 _ (K b) x L). lia.
Qed.

Lemma odd_double v (b : bool) : 2 * v + (if b then 1 else 0) = Z.lxor (2 * v) (if b then 1 else 0).
Proof.
  destruct b; [|rewrite Z.lxor_0_r; lia].
  rewrite Z.add_nocarry_lxor; [reflexivity|].
  apply Z.bits_inj'. intros n Hn. rewrite Z.land_spec, Z.testbit_0_l.
  destruct (Z.eqb_spec n 0) as [->|N]; [rewrite Z.testbit_even_0; reflexivity|].
  replace 1 with (2 ^ 0) by reflexivity. rewrite Z.pow2_bits_false by lia. apply andb_false_r.
Qed.

Lemma division_bits l : exists q,
  Z.lxor (bits_val l * 65536) (65535 * 2 ^ zlen l) = Z.lxor (pprod q generator) (crc_bits 65535 l).
Proof.
  induction l as [|b l IH] using rev_ind.
  - exists []. reflexivity.
  - destruct IH as [q IH]. set (x := crc_bits 65535 l) in *.
    exists (q ++ [xorb (Z.testbit x 15) b]).
    rewrite bits_val_snoc, pprod_snoc, crc_bits_app, zlen_snoc.
    fold x. cbn [crc_bits fold_left].
    assert (R : 0 <= x < 65536) by (apply crc_bits_range; lia).
    rewrite Z.lxor_assoc, <- (crc_bit_division x b R).
    rewrite <- Z.lxor_assoc, lxor_double, <- IH, <- lxor_double.
    rewrite Z.pow_add_r by (pose proof (zlen_nonneg l); lia).
    rewrite odd_double.
    replace (Z.lxor (2 * bits_val l) (if b then 1 else 0) * 65536)
      with (Z.lxor (2 * (bits_val l * 65536)) (if b then 65536 else 0)).
    + rewrite !Z.lxor_assoc. f_equal. rewrite Z.lxor_comm. f_equal. lia.
    + change 65536 with (2 ^ 16). rewrite <- !Z.shiftl_mul_pow2 by lia.
      rewrite Z.shiftl_lxor. apply f_equal2; [rewrite !Z.shiftl_mul_pow2 by lia; lia | destruct b; reflexivity].
Qed.

Lemma bytes_bits_zlen bs : zlen (bytes_bits bs) = 8 * zlen bs.
Proof. unfold zlen. rewrite bytes_bits_length. lia. Qed.

Lemma crc16_remainder bs : remainder (dividend bs) (crc16 bs).
Proof.
  split; [change (2 ^ 16) with 65536; apply crc16_range|].
  destruct (division_bits (bytes_bits bs)) as [q E]. exists q. unfold dividend.
  change (2 ^ 16) with 65536. rewrite <- bytes_bits_zlen. exact E.
Qed.

(** ** Remainders are unique *)
Lemma lxor_below u v n : 0 <= n -> 0 <= u < 2 ^ n -> 0 <= v < 2 ^ n -> 0 <= Z.lxor u v < 2 ^ n.
Proof.
  intros Hn [U1 U2] [V1 V2].
  assert (W : 0 <= Z.lxor u v) by (apply Z.lxor_nonneg; tauto). split; [exact W|].
  destruct (Z.eq_dec (Z.lxor u v) 0) as [->|N]; [apply Z.pow_pos_nonneg; lia|].
  apply Z.log2_lt_pow2; [clear -W N; lia|].
  apply Z.le_lt_trans with (1 := Z.log2_lxor u v U1 V1).
  assert (B : forall w, 0 <= w -> w < 2 ^ n -> Z.log2 w < n \/ w = 0).
  { intros w W1 W2. destruct (Z.eq_dec w 0); [auto|]. left. apply Z.log2_lt_pow2; [clear -W1 n0; lia | exact W2]. }
  assert (N0 : n <> 0).
  { intros ->. change (2 ^ 0) with 1 in *. assert (u = 0) by (clear -U1 U2; lia). assert (v = 0) by (clear -V1 V2; lia). subst. apply N. reflexivity. }
  destruct (B u U1 U2) as [Bu| -> ], (B v V1 V2) as [Bv| -> ]; change (Z.log2 0) with 0; lia.
Qed.

Lemma pprod_range q : 0 <= pprod q generator < 2 ^ (16 + zlen q).
Proof.
  induction q as [|b q [IH1 IH2]]; [cbn; lia|].
  cbn [pprod]. rewrite zlen_cons. pose proof (zlen_nonneg q) as Hn.
  assert (G : 0 <= (if b then generator * 2 ^ zlen q else 0) < 2 ^ (16 + (zlen q + 1))).
  { replace (16 + (zlen q + 1)) with (17 + zlen q) by lia. rewrite Z.pow_add_r by lia.
    change (2 ^ 17) with 131072. unfold generator. change (2^16 + 2^12 + 2^5 + 1) with 69665.
    assert (0 < 2 ^ zlen q) by (apply Z.pow_pos_nonneg; lia). destruct b; nia. }
  assert (P : 0 <= pprod q generator < 2 ^ (16 + (zlen q + 1))).
  { split; [exact IH1|]. replace (16 + (zlen q + 1)) with ((16 + zlen q) + 1) by lia.
    rewrite Z.pow_add_r by lia. lia. }
  apply lxor_below; [lia | exact G | exact P].
Qed.

Lemma testbit_high v n : 0 <= v < 2 ^ n -> Z.testbit v n = false.
Proof.
  intros L. destruct (Z.eqb_spec v 0) as [->|N]; [apply Z.testbit_0_l|].
  apply Z.bits_above_log2; [lia|]. apply Z.log2_lt_pow2; lia.
Qed.

Lemma pprod_small q r : 0 <= r < 2 ^ 16 -> Z.lxor (pprod q generator) r = 0 -> r = 0.
Proof.
  intros R E. induction q as [|b q IH]; [cbn [pprod] in E; rewrite Z.lxor_0_l in E; exact E|].
  cbn [pprod] in E. destruct b; [|rewrite Z.lxor_0_l in E; exact (IH E)].
  exfalso. pose proof (zlen_nonneg q) as Hn.
  assert (T : Z.testbit (Z.lxor (Z.lxor (generator * 2 ^ zlen q) (pprod q generator)) r) (16 + zlen q) = false)
    by (rewrite E; apply Z.testbit_0_l).
  rewrite !Z.lxor_spec, (testbit_high (pprod q generator)) in T by apply pprod_range.
  rewrite (testbit_high r) in T.
  2:{ split; [lia|]. apply Z.lt_le_trans with (2 ^ 16); [lia|]. apply Z.pow_le_mono_r; lia. }
  rewrite <- Z.shiftl_mul_pow2, Z.shiftl_spec in T by lia.
  replace (16 + zlen q - zlen q) with 16 in T by lia. discriminate.
Qed.

Lemma pprod_pad k q g : pprod (repeat false k ++ q) g = pprod q g.
Proof. induction k as [|k IH]; [reflexivity|]. cbn [repeat app pprod]. rewrite IH. apply Z.lxor_0_l. Qed.

Lemma pprod_diff a : forall b g, length a = length b -> pprod (diff a b) g = Z.lxor (pprod a g) (pprod b g).
Proof.
  induction a as [|x a IH]; intros [|y b] g L; try discriminate; [reflexivity|].
  injection L as L. cbn [diff pprod]. rewrite (IH b g L).
  assert (D : zlen (diff a b) = zlen a /\ zlen b = zlen a).
  { unfold zlen. rewrite <- L. split; [|reflexivity]. f_equal. clear -L. revert b L.
    induction a as [|x a IH]; intros [|y b] L; try discriminate; [reflexivity|]. cbn. f_equal. apply IH. injection L; auto. }
  destruct D as [-> ->].
  generalize (pprod a g) (pprod b g) (g * 2 ^ zlen a). intros u v w.
  apply Z.bits_inj'. intros n _. destruct x, y; cbn [xorb]; rewrite !Z.lxor_spec, ?Z.testbit_0_l;
  destruct (Z.testbit u n), (Z.testbit v n), (Z.testbit w n); reflexivity.
Qed.

Lemma remainder_unique m r r' : remainder m r -> remainder m r' -> r = r'.
Proof.
  intros [R [q E]] [R' [q' E']].
  set (n := (length q + length q')%nat).
  set (a := repeat false (n - length q) ++ q). set (b := repeat false (n - length q') ++ q').
  assert (La : length a = length b) by (unfold a, b; rewrite !app_length, !repeat_length; lia).
  rewrite <- (pprod_pad (n - length q) q) in E. fold a in E.
  rewrite <- (pprod_pad (n - length q') q') in E'. fold b in E'.
  assert (X : Z.lxor (pprod (diff a b) generator) (Z.lxor r r') = 0).
  { rewrite (pprod_diff a b _ La). rewrite E' in E.
    apply (f_equal (fun z => Z.lxor z (Z.lxor (pprod b generator) r'))) in E.
    rewrite Z.lxor_nilpotent in E. rewrite E.
    generalize (pprod a generator) (pprod b generator). intros u v.
    apply Z.bits_inj'. intros k _. rewrite !Z.lxor_spec.
    destruct (Z.testbit u k), (Z.testbit v k), (Z.testbit r k), (Z.testbit r' k); reflexivity. }
  apply pprod_small in X.
  - apply Z.lxor_eq in X. exact X.
  - apply lxor_below; [lia | exact R | exact R'].
Qed.

Lemma calculate_crc_split bs : calculate_crc bs = (crc16 bs / 256, crc16 bs mod 256).
Proof.
  unfold calculate_crc. pose proof (crc16_range bs) as R. revert R. generalize (crc16 bs). intros x R.
  assert (K : sweep 16 0 (fun x => (Z.land (Z.shiftr x 8) 255 =? x / 256) && (Z.land x 255 =? x mod 256)) = true) by (vm_compute; reflexivity).
  pose proof (sweep16 _ K x R) as H. apply andb_prop in H. destruct H as [H1 H2].
  apply Z.eqb_eq in H1. apply Z.eqb_eq in H2. rewrite H1, H2. reflexivity.
Qed.

Lemma crc_is_remainder bs r : 0 <= r < 65536 ->
  (calculate_crc bs = (r / 256, r mod 256) <-> remainder (dividend bs) r).
Proof.
  intros R. rewrite calculate_crc_split. split.
  - intros E. injection E as E1 E2. replace r with (crc16 bs); [apply crc16_remainder|].
    pose proof (crc16_range bs). revert E1 E2. generalize dependent (crc16 bs). intros x Hx. lia.
  - intros H. rewrite (remainder_unique _ _ _ (crc16_remainder bs) H). reflexivity.
Qed.

(** ** Residue *)
Lemma word_bits' x : 0 <= x < 65536 -> bytes_bits [x / 256; x mod 256] = Zbits 16 x.
Proof.
  intros L.
  assert (K : sweep 16 0 (fun x => if list_eq_dec Bool.bool_dec (bytes_bits [x / 256; x mod 256]) (Zbits 16 x) then true else false) = true) by (vm_compute; reflexivity).
  apply (fun S => sweep16 _ S x L) in K. cbv beta in K. destruct (list_eq_dec _ _ _) as [E|]; [exact E | discriminate].
Qed.
Lemma word_bits a b : is_byte a -> is_byte b -> bytes_bits [a; b] = Zbits 16 (256 * a + b).
Proof.
  unfold is_byte. intros A B. rewrite <- word_bits' by lia.
  assert (E1 : (256 * a + b) / 256 = a) by lia. assert (E2 : (256 * a + b) mod 256 = b) by lia. rewrite E1, E2. reflexivity.
Qed.
Lemma word_zero w : 0 <= w < 65536 -> (w / 256, w mod 256) = (0, 0) -> w = 0.
Proof. intros L E. assert (E1 := f_equal fst E). assert (E2 := f_equal snd E). cbn [fst snd] in E1, E2. clear E. lia. Qed.
Lemma residue bs a b : is_byte a -> is_byte b ->
  (calculate_crc (bs ++ [a; b]) = (0, 0) <-> calculate_crc bs = (a, b)).
Proof.
  intros A B. rewrite !calculate_crc_split. unfold crc16. rewrite bytes_bits_app, crc_bits_app. fold (crc16 bs).
  pose proof (crc16_range bs) as R. revert R. generalize (crc16 bs). intros x R.
  assert (Bx : bytes_bits [a; b] = Zbits 16 (256 * a + b)) by (apply word_bits; assumption).
  rewrite Bx. set (v := 256 * a + b). assert (V : 0 <= v < 65536) by (unfold v, is_byte in *; lia).
  assert (S : crc_bits x (Zbits 16 v) = crc_bits 0 (Zbits 16 (Z.lxor x v))).
  { replace 0 with (Z.lxor x x) by apply Z.lxor_nilpotent.
    assert (Zx : Zbits 16 (Z.lxor x v) = diff (Zbits 16 x) (Zbits 16 v)).
    { clear. generalize 16%nat. intros n. induction n as [|n IH]; [reflexivity|]. cbn [Zbits diff]. rewrite Z.lxor_spec, IH. reflexivity. }
    rewrite Zx, crc_bits_linear by reflexivity. rewrite (crc_self x R). symmetry. apply Z.lxor_0_l. }
  assert (Rv : 0 <= Z.lxor x v < 65536).
  { change 65536 with (2 ^ 16). apply lxor_below; [lia | exact R | exact V]. }
  split; intros E.
  - assert (Zr : crc_bits x (Zbits 16 v) = 0).
    { apply word_zero; [apply crc_bits_range; exact R | exact E]. }
    rewrite S in Zr. apply crc16_inj in Zr; [|exact Rv]. apply Z.lxor_eq in Zr. rewrite Zr. unfold v, is_byte in *. clear -A B. f_equal; lia.
  - injection E as E1 E2. assert (X : x = v) by (unfold v; clear -E1 E2; lia). rewrite X, (crc_self v V). reflexivity.
Qed.

(** ** The table *)
Lemma table_shift_bit x : 0 <= x < 65536 -> table_shift x = crc_bit x false.
Proof.
  intros L. assert (K : sweep 16 0 (fun x => table_shift x =? crc_bit x false) = true) by (vm_compute; reflexivity).
  pose proof (sweep16 _ K x L). lia.
Qed.
Lemma shifts_bits n : forall x, 0 <= x < 65536 -> shifts n x = crc_bits x (repeat false n).
Proof.
  induction n as [|n IH]; intros x L; [reflexivity|]. cbn [shifts repeat crc_bits fold_left].
  rewrite table_shift_bit by exact L. apply IH. apply crc_bit_range. exact L.
Qed.

Lemma sweep8 f : sweep 8 0 f = true -> forall x, 0 <= x <= 255 -> f x = true.
Proof. intros S x L. apply (sweep_spec 8 0 f x S). change (0 + 2 ^ Z.of_nat 8) with 256. lia. Qed.

Lemma byte_into_register b : is_byte b -> crc_bits 0 (Zbits 8 b) = crc_bits (256 * b) (repeat false 8).
Proof.
  intros B. assert (K : sweep 8 0 (fun b => crc_bits 0 (Zbits 8 b) =? crc_bits (256 * b) (repeat false 8)) = true) by (vm_compute; reflexivity).
  pose proof (sweep8 _ K b B). lia.
Qed.
Lemma register_byte x : 0 <= x < 65536 ->
  crc_bits x (repeat false 8) = Z.lxor (nth (Z.to_nat (Z.land (Z.shiftr x 8) 255)) crc_table 0) (Z.land (Z.shiftl x 8) 65280).
Proof.
  intros L.
  assert (K : sweep 16 0 (fun x => crc_bits x (repeat false 8) =? Z.lxor (nth (Z.to_nat (Z.land (Z.shiftr x 8) 255)) crc_table 0) (Z.land (Z.shiftl x 8) 65280)) = true) by (vm_compute; reflexivity).
  pose proof (sweep16 _ K x L). lia.
Qed.
Lemma diff_zeros n : forall l, length l = n -> diff l (repeat false n) = l.
Proof.
  induction n as [|n IH]; intros [|b l] L; try discriminate; [reflexivity|]. injection L as L.
  cbn [repeat diff]. rewrite xorb_false_r, IH; auto.
Qed.
Lemma nth_table i : 0 <= i <= 255 -> nth (Z.to_nat i) crc_table 0 = crc_bits (256 * i) (repeat false 8).
Proof.
  intros L. assert (K : sweep 8 0 (fun i => nth (Z.to_nat i) crc_table 0 =? crc_bits (256 * i) (repeat false 8)) = true) by (vm_compute; reflexivity).
  pose proof (sweep8 _ K i L). lia.
Qed.
Lemma hi_byte x : 0 <= x < 65536 -> is_byte (Z.land (Z.shiftr x 8) 255).
Proof.
  intros L. assert (K : sweep 16 0 (fun x => (0 <=? Z.land (Z.shiftr x 8) 255) && (Z.land (Z.shiftr x 8) 255 <=? 255)) = true) by (vm_compute; reflexivity).
  pose proof (sweep16 _ K x L). unfold is_byte. lia.
Qed.
Lemma lxor_byte a b : is_byte a -> is_byte b -> is_byte (Z.lxor a b).
Proof.
  unfold is_byte. intros A B.
  pose proof (lxor_below a b 8 ltac:(lia)) as H. change (2 ^ 8) with 256 in H. lia.
Qed.

Lemma table_step_byte x b : 0 <= x < 65536 -> is_byte b -> table_step x b = crc_bits x (Zbits 8 b).
Proof.
  intros L B.
  assert (E : crc_bits x (Zbits 8 b) = Z.lxor (crc_bits x (repeat false 8)) (crc_bits 0 (Zbits 8 b))).
  { rewrite <- crc_bits_linear by (rewrite repeat_length; reflexivity). rewrite Z.lxor_0_r. f_equal.
    assert (forall n l, length l = n -> diff (repeat false n) l = l) as Dz.
    { induction n as [|n IH]; intros [|c l] Hl; try discriminate; [reflexivity|]. cbn [repeat diff]. injection Hl as Hl.
      rewrite xorb_false_l, IH; auto. }
    symmetry. apply Dz. reflexivity. }
  rewrite E, (byte_into_register b B), (register_byte x L).
  unfold table_step. pose proof (hi_byte x L) as Hi. set (h := Z.land (Z.shiftr x 8) 255) in *.
  rewrite (nth_table (Z.lxor b h)) by (apply lxor_byte; assumption).
  rewrite (nth_table h Hi).
  replace (256 * Z.lxor b h) with (Z.lxor (256 * b) (256 * h)).
  2:{ change 256 with (2 ^ 8). rewrite !(Z.mul_comm (2 ^ 8)), <- !Z.shiftl_mul_pow2, Z.shiftl_lxor by lia. reflexivity. }
  rewrite <- (diff_zeros 8 (repeat false 8)) at 1 by apply repeat_length.
  rewrite crc_bits_linear by reflexivity.
  rewrite !Z.lxor_assoc. rewrite (Z.lxor_comm (crc_bits (256 * b) _)). rewrite !Z.lxor_assoc. reflexivity.
Qed.

Lemma table_driven_from bs : forall x, 0 <= x < 65536 -> Forall is_byte bs ->
  fold_left table_step bs x = crc_bits x (bytes_bits bs).
Proof.
  induction bs as [|b bs IH]; intros x L F; [reflexivity|]. inversion F; subst.
  cbn [fold_left]. rewrite table_step_byte by assumption.
  change (bytes_bits (b :: bs)) with (Zbits 8 b ++ bytes_bits bs). rewrite crc_bits_app.
  apply IH; [apply crc_bits_range|]; assumption.
Qed.
Lemma table_driven bs : Forall is_byte bs -> crc16_by_table bs = crc16 bs.
Proof. intros F. apply table_driven_from; [lia | exact F]. Qed.
