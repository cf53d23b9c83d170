(** Facts about bit strings and bytes. *)
From Coq Require Import ZifyBool ZifyNat.
From Verif Require Export Bits.
Ltac Zify.zify_post_hook ::= Z.div_mod_to_equations.

Lemma Zbits_length w v : length (Zbits w v) = w.
Proof. induction w; cbn [Zbits length]; congruence. Qed.

Lemma bits_val_acc_eq l : forall acc, bits_val_acc acc l = acc * 2 ^ zlen l + bits_val l.
Proof.
  unfold bits_val, zlen.
  induction l as [|b l IH]; intros acc; cbn [bits_val_acc length].
  - change (Z.of_nat 0) with 0. rewrite Z.pow_0_r. lia.
  - rewrite (IH (2 * acc + _)), (IH (2 * 0 + _)), Nat2Z.inj_succ, Z.pow_succ_r by lia.
    ring.
Qed.

Lemma bits_val_cons b l : bits_val (b :: l) = (if b then 1 else 0) * 2 ^ zlen l + bits_val l.
Proof. unfold bits_val at 1. cbn [bits_val_acc]. rewrite bits_val_acc_eq. f_equal. Qed.

Lemma bits_val_bounds l : 0 <= bits_val l < 2 ^ zlen l.
Proof.
  induction l as [|b l IH].
  - cbn. lia.
  - rewrite bits_val_cons. unfold zlen in *. cbn [length].
    rewrite Nat2Z.inj_succ, Z.pow_succ_r by lia. destruct b; lia.
Qed.

Lemma bits_val_app a b : bits_val (a ++ b) = bits_val a * 2 ^ zlen b + bits_val b.
Proof.
  induction a as [|x a IH]; cbn [app].
  - change (bits_val []) with 0. lia.
  - rewrite !bits_val_cons, IH. unfold zlen. rewrite app_length, Nat2Z.inj_add, Z.pow_add_r by lia.
    ring.
Qed.

Lemma bits_val_Zbits w v : bits_val (Zbits w v) = v mod 2 ^ Z.of_nat w.
Proof.
  induction w as [|w IH].
  - cbn. rewrite Z.mod_1_r. reflexivity.
  - cbn [Zbits]. rewrite bits_val_cons, IH. unfold zlen. rewrite Zbits_length.
    replace (Z.of_nat (S w)) with (Z.of_nat w + 1) by lia.
    rewrite Z.pow_add_r by lia.
    rewrite Zmult_comm.
    rewrite (Z.rem_mul_r v (2 ^ Z.of_nat w) (2 ^ 1)) by (try apply Z.pow_nonzero; lia).
    rewrite <- Z.testbit_spec' by lia.
    destruct (Z.testbit v (Z.of_nat w)); cbn [Z.b2z]; lia.
Qed.

Lemma bits_val_Zbits_small w v : 0 <= v < 2 ^ Z.of_nat w -> bits_val (Zbits w v) = v.
Proof. intros. rewrite bits_val_Zbits. apply Z.mod_small. assumption. Qed.

Lemma Zbits_mod w v : Zbits w (v mod 2 ^ Z.of_nat w) = Zbits w v.
Proof.
  assert (H : forall k, (k <= w)%nat -> Zbits k (v mod 2 ^ Z.of_nat w) = Zbits k v).
  { induction k as [|k IH]; intros Hk; cbn [Zbits]; [reflexivity|].
    rewrite Z.mod_pow2_bits_low by lia. f_equal. apply IH. lia. }
  apply H. lia.
Qed.

Lemma Zbits_app a b v : Zbits (a + b) v = Zbits a (v / 2 ^ Z.of_nat b) ++ Zbits b v.
Proof.
  induction a as [|a IH]; cbn [Nat.add Zbits app]; [reflexivity|].
  rewrite IH. f_equal. rewrite <- Z.shiftr_div_pow2, Z.shiftr_spec by lia.
  f_equal. lia.
Qed.

Lemma Zbits_split a b x y : 0 <= y < 2 ^ Z.of_nat b ->
  Zbits (a + b) (x * 2 ^ Z.of_nat b + y) = Zbits a x ++ Zbits b y.
Proof.
  intros H. rewrite Zbits_app. f_equal.
  - f_equal. rewrite Z.div_add_l by lia. rewrite Z.div_small by lia. lia.
  - rewrite <- (Zbits_mod b (x * _ + y)), <- (Zbits_mod b y).
    f_equal. rewrite Z.add_comm, Z.mod_add by lia. reflexivity.
Qed.

Lemma Zbits_bits_val l : Zbits (length l) (bits_val l) = l.
Proof.
  induction l as [|b l IH]; [reflexivity|].
  cbn [length]. replace (S (length l)) with (1 + length l)%nat by lia.
  rewrite bits_val_cons. unfold zlen. rewrite Zbits_split by apply bits_val_bounds.
  rewrite IH. destruct b; reflexivity.
Qed.

Lemma Zbits_bits_val' w l : length l = w -> Zbits w (bits_val l) = l.
Proof. intros <-. apply Zbits_bits_val. Qed.

Lemma Zbits_inj w x y : 0 <= x < 2 ^ Z.of_nat w -> 0 <= y < 2 ^ Z.of_nat w ->
  Zbits w x = Zbits w y -> x = y.
Proof.
  intros Hx Hy H. rewrite <- (bits_val_Zbits_small w x), <- (bits_val_Zbits_small w y) by assumption.
  congruence.
Qed.

(** a bit string of known length is the [Zbits] of its value *)
Lemma bits_as_Zbits w l : length l = w -> exists v, 0 <= v < 2 ^ Z.of_nat w /\ l = Zbits w v.
Proof.
  intros <-. exists (bits_val l). split; [apply bits_val_bounds | symmetry; apply Zbits_bits_val].
Qed.

Lemma bytes_bits_app a b : bytes_bits (a ++ b) = bytes_bits a ++ bytes_bits b.
Proof. apply flat_map_app. Qed.
Lemma bytes_bits_cons a b : bytes_bits (a :: b) = Zbits 8 a ++ bytes_bits b.
Proof. reflexivity. Qed.

Lemma bytes_bits_length l : length (bytes_bits l) = (8 * length l)%nat.
Proof.
  induction l as [|b l IH]; [reflexivity|].
  rewrite bytes_bits_cons, app_length, Zbits_length, IH. cbn [length]. lia.
Qed.

Lemma bits_bytes_8 b l : length b = 8%nat -> bits_bytes (b ++ l) = bits_val b :: bits_bytes l.
Proof.
  intros H. do 8 (destruct b as [|? b]; [discriminate H|]). destruct b; [|discriminate H].
  reflexivity.
Qed.

Lemma bits_bytes_app8 k : forall a b, length a = (8 * k)%nat -> bits_bytes (a ++ b) = bits_bytes a ++ bits_bytes b.
Proof.
  induction k as [|k IH]; intros a b H.
  - destruct a; [reflexivity | cbn [length] in H; lia].
  - assert (F : length (firstn 8 a) = 8%nat) by (rewrite firstn_length; lia).
    assert (G : length (skipn 8 a) = (8 * k)%nat) by (rewrite skipn_length; lia).
    rewrite <- (firstn_skipn 8 a). set (x := firstn 8 a) in *. set (y := skipn 8 a) in *.
    rewrite <- app_assoc. rewrite (bits_bytes_8 x (y ++ b)), (bits_bytes_8 x y) by exact F.
    cbn [app]. f_equal. apply IH. exact G.
Qed.

Lemma is_byte_range b : is_byte b <-> 0 <= b < 2 ^ Z.of_nat 8.
Proof. unfold is_byte. change (2 ^ Z.of_nat 8) with 256. lia. Qed.

Lemma bits_bytes_bytes_bits l : Forall is_byte l -> bits_bytes (bytes_bits l) = l.
Proof.
  induction 1 as [|b l Hb Hl IH]; [reflexivity|].
  rewrite bytes_bits_cons, bits_bytes_8 by apply Zbits_length.
  rewrite IH, bits_val_Zbits_small; [reflexivity | apply is_byte_range; assumption].
Qed.

Lemma bits_bytes_is_byte_aux n : forall l, (length l < n)%nat -> Forall is_byte (bits_bytes l).
Proof.
  induction n as [|n IH]; intros l H; [lia|].
  destruct (Nat.lt_ge_cases (length l) 8) as [Hl|Hl].
  - do 8 (destruct l as [|? l]; [constructor|]). cbn [length] in Hl. lia.
  - rewrite <- (firstn_skipn 8 l), bits_bytes_8 by (rewrite firstn_length; lia).
    constructor.
    + apply is_byte_range. pose proof (bits_val_bounds (firstn 8 l)) as B. unfold zlen in B.
      rewrite firstn_length, Nat.min_l in B by lia. exact B.
    + apply IH. rewrite skipn_length. lia.
Qed.
Lemma bits_bytes_is_byte l : Forall is_byte (bits_bytes l).
Proof. apply (bits_bytes_is_byte_aux (S (length l))). lia. Qed.

Lemma bits_bytes_length k : forall l, length l = (8 * k)%nat -> length (bits_bytes l) = k.
Proof.
  induction k as [|k IH]; intros l H.
  - destruct l; [reflexivity | cbn [length] in H; lia].
  - rewrite <- (firstn_skipn 8 l), bits_bytes_8 by (rewrite firstn_length; lia).
    cbn [length]. f_equal. apply IH. rewrite skipn_length. lia.
Qed.

Lemma bytes_bits_bits_bytes k : forall l, length l = (8 * k)%nat -> bytes_bits (bits_bytes l) = l.
Proof.
  induction k as [|k IH]; intros l H.
  - destruct l; [reflexivity | cbn [length] in H; lia].
  - assert (F : length (firstn 8 l) = 8%nat) by (rewrite firstn_length; lia).
    rewrite <- (firstn_skipn 8 l) at 1. rewrite bits_bytes_8 by exact F.
    rewrite bytes_bits_cons, IH by (rewrite skipn_length; lia).
    rewrite Zbits_bits_val' by exact F. apply firstn_skipn.
Qed.

Lemma bytes_bits_inj a b : Forall is_byte a -> Forall is_byte b -> bytes_bits a = bytes_bits b -> a = b.
Proof.
  intros Ha Hb H. rewrite <- (bits_bytes_bytes_bits a), <- (bits_bytes_bytes_bits b) by assumption.
  congruence.
Qed.

Lemma be_bytes_length n v : length (be_bytes n v) = n.
Proof. induction n; cbn [be_bytes length]; congruence. Qed.

Lemma be_bytes_is_byte n v : Forall is_byte (be_bytes n v).
Proof.
  induction n as [|n IH]; cbn [be_bytes]; constructor; [|exact IH].
  unfold is_byte. pose proof (Z.mod_pos_bound (v / 2 ^ (8 * Z.of_nat n)) 256). lia.
Qed.

Lemma bytes_bits_be_bytes n v : bytes_bits (be_bytes n v) = Zbits (8 * n) v.
Proof.
  induction n as [|n IH]; [reflexivity|].
  cbn [be_bytes]. rewrite bytes_bits_cons, IH.
  replace (8 * S n)%nat with (8 + 8 * n)%nat by lia. rewrite (Zbits_app 8).
  f_equal. replace (Z.of_nat (8 * n)) with (8 * Z.of_nat n) by lia.
  rewrite <- (Zbits_mod 8). rewrite <- (Zbits_mod 8 (v / _)).
  change (2 ^ Z.of_nat 8) with 256. rewrite Z.mod_mod by lia. reflexivity.
Qed.

Lemma zlen_app {A} (a b : list A) : zlen (a ++ b) = zlen a + zlen b.
Proof. unfold zlen. rewrite app_length. lia. Qed.
Lemma zlen_cons {A} (a : A) b : zlen (a :: b) = 1 + zlen b.
Proof. unfold zlen. cbn [length]. lia. Qed.
Lemma zlen_nonneg {A} (l : list A) : 0 <= zlen l.
Proof. unfold zlen. lia. Qed.

Lemma firstn_app_exact {A} (a b : list A) n : length a = n -> firstn n (a ++ b) = a.
Proof. intros <-. rewrite firstn_app, Nat.sub_diag, firstn_all. cbn [firstn]. apply app_nil_r. Qed.
Lemma skipn_app_exact {A} (a b : list A) n : length a = n -> skipn n (a ++ b) = b.
Proof. intros <-. rewrite skipn_app, Nat.sub_diag, skipn_all. reflexivity. Qed.

(** the [i]-th bit of a shifted field inside a byte, for disjoint fields *)
Lemma lor_shift_add a b n : 0 <= n -> 0 <= b < 2 ^ n -> Z.lor (Z.shiftl a n) b = a * 2 ^ n + b.
Proof.
  intros Hn Hb. rewrite Z.shiftl_mul_pow2 by lia.
  assert (E : Z.land (a * 2 ^ n) b = 0).
  { apply Z.bits_inj'. intros k Hk. rewrite Z.land_spec, Z.bits_0.
    destruct (Z.lt_ge_cases k n).
    - rewrite Z.mul_pow2_bits_low by lia. reflexivity.
    - replace (Z.testbit b k) with false; [apply andb_false_r|].
      symmetry. rewrite <- (Z.mod_small b (2 ^ n)) by lia. apply Z.mod_pow2_bits_high. lia. }
  rewrite Z.add_nocarry_lxor, Z.lxor_lor by exact E. reflexivity.
Qed.
