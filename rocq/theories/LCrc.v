(** Error detection of the CRC. *)
From Coq Require Import ZifyBool ZifyNat.
From Verif Require Export LSend.
Ltac Zify.zify_post_hook ::= Z.div_mod_to_equations.

(** ** Exhaustive checks over 16 bit values *)
Fixpoint sweep (k : nat) (v : Z) (f : Z -> bool) : bool :=
  match k with O => f v | S k => sweep k v f && sweep k (v + 2 ^ Z.of_nat k) f end.
Lemma sweep_spec k : forall v f x, sweep k v f = true -> v <= x < v + 2 ^ Z.of_nat k -> f x = true.
Proof.
  induction k as [|k IH]; intros v f x S L.
  - cbn [sweep] in S. change (2 ^ Z.of_nat 0) with 1 in L. replace x with v by lia. exact S.
  - cbn [sweep] in S. apply andb_prop in S. destruct S as [S1 S2].
    rewrite Nat2Z.inj_succ, Z.pow_succ_r in L by lia.
    destruct (Z.ltb_spec x (v + 2 ^ Z.of_nat k)); [apply (IH v) | apply (IH (v + 2 ^ Z.of_nat k))]; auto; lia.
Qed.
Lemma sweep16 f : sweep 16 0 f = true -> forall x, 0 <= x < 65536 -> f x = true.
Proof. intros S x L. apply (sweep_spec 16 0 f x S). change (0 + 2 ^ Z.of_nat 16) with 65536. exact L. Qed.

Lemma crc_bit_range x b : 0 <= x < 65536 -> 0 <= crc_bit x b < 65536.
Proof.
  intros L.
  assert (K : forall b, sweep 16 0 (fun x => (0 <=? crc_bit x b) && (crc_bit x b <? 65536)) = true) by (intros []; vm_compute; reflexivity).
  pose proof (sweep16 _ (K b) x L). lia.
Qed.
Lemma crc_bits_range l : forall x, 0 <= x < 65536 -> 0 <= crc_bits x l < 65536.
Proof. induction l as [|b l IH]; intros x L; [exact L|]. apply IH, crc_bit_range, L. Qed.
Lemma crc_bits_app x a b : crc_bits x (a ++ b) = crc_bits (crc_bits x a) b.
Proof. apply fold_left_app. Qed.

(** ** Linearity *)
Lemma crc_bit_linear x y a b : crc_bit (Z.lxor x y) (xorb a b) = Z.lxor (crc_bit x a) (crc_bit y b).
Proof.
  assert (K : forall v c, crc_bit v c = Z.lxor (Z.land (Z.shiftl v 1) 65535) (if xorb (Z.testbit v 15) c then 4129 else 0)).
  { intros v c. unfold crc_bit. destruct (xorb (Z.testbit v 15) c); [reflexivity | rewrite Z.lxor_0_r; reflexivity]. }
  rewrite !K. rewrite Z.lxor_spec, Z.shiftl_lxor.
  assert (E : Z.land (Z.lxor (Z.shiftl x 1) (Z.shiftl y 1)) 65535
            = Z.lxor (Z.land (Z.shiftl x 1) 65535) (Z.land (Z.shiftl y 1) 65535)).
  { apply Z.bits_inj'. intros n _. rewrite Z.lxor_spec, !Z.land_spec, Z.lxor_spec.
    destruct (Z.testbit (Z.shiftl x 1) n), (Z.testbit (Z.shiftl y 1) n), (Z.testbit 65535 n); reflexivity. }
  rewrite E. generalize (Z.land (Z.shiftl x 1) 65535) (Z.land (Z.shiftl y 1) 65535). intros p q.
  destruct (Z.testbit x 15), (Z.testbit y 15), a, b; cbn [xorb];
  apply Z.bits_inj'; intros n _; rewrite !Z.lxor_spec, ?Z.testbit_0_l;
  destruct (Z.testbit p n), (Z.testbit q n), (Z.testbit 4129 n); reflexivity.
Qed.
Lemma crc_bits_linear a : forall b x y, length a = length b ->
  crc_bits (Z.lxor x y) (diff a b) = Z.lxor (crc_bits x a) (crc_bits y b).
Proof.
  induction a as [|u a IH]; intros [|v b] x y L; try discriminate; [reflexivity|].
  cbn [diff crc_bits fold_left]. injection L as L. rewrite crc_bit_linear. apply IH. exact L.
Qed.

(** ** Code words *)
Lemma crc_self x : 0 <= x < 65536 -> crc_bits x (Zbits 16 x) = 0.
Proof.
  intros L. assert (K : sweep 16 0 (fun x => crc_bits x (Zbits 16 x) =? 0) = true) by (vm_compute; reflexivity).
  pose proof (sweep16 _ K x L). lia.
Qed.
Lemma crc16_range p : 0 <= crc16 p < 65536.
Proof. apply crc_bits_range. lia. Qed.
Lemma protected_bits p : bytes_bits (protected p) = bytes_bits p ++ Zbits 16 (crc16 p).
Proof.
  unfold protected, calculate_crc. rewrite bytes_bits_app. f_equal.
  pose proof (crc16_range p) as R. generalize dependent (crc16 p). intros x R.
  assert (K : sweep 16 0 (fun x => if list_eq_dec Bool.bool_dec (bytes_bits [Z.land (Z.shiftr x 8) 255; Z.land x 255]) (Zbits 16 x) then true else false) = true) by (vm_compute; reflexivity).
  pose proof (sweep16 _ K x R) as X. cbv beta in X. destruct (list_eq_dec _ _ _); [assumption | discriminate].
Qed.
Lemma protected_zero p : crc_bits 65535 (bytes_bits (protected p)) = 0.
Proof. rewrite protected_bits, crc_bits_app. apply crc_self. apply crc16_range. Qed.
Lemma undetected p p' : length p = length p' -> crc_bits 0 (diff (bytes_bits (protected p)) (bytes_bits (protected p'))) = 0.
Proof.
  intros L. change 0 with (Z.lxor 65535 65535) at 1. rewrite crc_bits_linear, !protected_zero; [reflexivity|].
  rewrite !bytes_bits_length. unfold protected. destruct (calculate_crc p), (calculate_crc p'). rewrite !app_length, L. reflexivity.
Qed.

(** ** Zero runs *)
Lemma crc_zeros n : crc_bits 0 (repeat false n) = 0.
Proof. induction n as [|n IH]; [reflexivity|]. exact IH. Qed.
Lemma crc_zero_inj n : forall x, 0 <= x < 65536 -> crc_bits x (repeat false n) = 0 -> x = 0.
Proof.
  induction n as [|n IH]; intros x L E; [exact E|]. cbn [repeat crc_bits fold_left] in E.
  apply IH in E; [|apply crc_bit_range; exact L].
  assert (K : sweep 16 0 (fun x => implb (crc_bit x false =? 0) (x =? 0)) = true) by (vm_compute; reflexivity).
  pose proof (sweep16 _ K x L). lia.
Qed.
Lemma crc16_inj v : 0 <= v < 65536 -> crc_bits 0 (Zbits 16 v) = 0 -> v = 0.
Proof.
  intros L E. assert (K : sweep 16 0 (fun v => implb (crc_bits 0 (Zbits 16 v) =? 0) (v =? 0)) = true) by (vm_compute; reflexivity).
  pose proof (sweep16 _ K v L). lia.
Qed.
Lemma Zbits_0 n : Zbits n 0 = repeat false n.
Proof. induction n as [|n IH]; [reflexivity|]. cbn [Zbits repeat]. rewrite Z.testbit_0_l, IH. reflexivity. Qed.
Lemma repeat_app_inv {A} (x : A) n a b : repeat x n = a ++ b -> a = repeat x (length a) /\ b = repeat x (length b).
Proof.
  revert a. induction n as [|n IH]; intros a E; cbn [repeat] in E.
  - symmetry in E. apply app_eq_nil in E. destruct E as [-> ->]. auto.
  - destruct a as [|y a]; [cbn [app length repeat] in *; split; [reflexivity|]; subst b; cbn [length]; rewrite repeat_length; reflexivity|].
    injection E as <- E. destruct (IH a E) as [Ea Eb]. cbn [length repeat]. split; congruence.
Qed.

(** ** Bursts *)
Lemma burst_zero e : burst 16 e -> crc_bits 0 e = 0 -> e = repeat false (length e).
Proof.
  intros (a & b & c & -> & L) E. rewrite !crc_bits_app, crc_zeros in E.
  apply crc_zero_inj in E; [|apply crc_bits_range; lia].
  set (k := (16 - length b)%nat).
  assert (Eb : crc_bits 0 (repeat false k ++ b) = 0) by (rewrite crc_bits_app, crc_zeros; exact E).
  assert (Lb : length (repeat false k ++ b) = 16%nat) by (rewrite app_length, repeat_length; unfold k; lia).
  destruct (bits_as_Zbits 16 _ Lb) as (v & Rv & Ev). rewrite Ev in Eb. apply crc16_inj in Eb; [|exact Rv]. subst v.
  rewrite Zbits_0 in Ev. symmetry in Ev. apply repeat_app_inv in Ev. destruct Ev as [_ ->].
  rewrite !app_length, !repeat_length. rewrite !repeat_app. reflexivity.
Qed.

(** ** Odd weight *)
Definition parity (l : list bool) : bool := fold_right xorb false l.
Lemma parity_weight l : parity l = Nat.odd (weight l).
Proof.
  unfold weight. induction l as [|[] l IH]; cbn [parity fold_right filter length]; [reflexivity| |].
  - fold (parity l). rewrite IH, Nat.odd_succ, <- Nat.negb_odd. destruct (Nat.odd _); reflexivity.
  - fold (parity l). rewrite xorb_false_l. exact IH.
Qed.
Lemma crc_bit_parity x b : 0 <= x < 65536 -> parity (Zbits 16 (crc_bit x b)) = xorb (parity (Zbits 16 x)) b.
Proof.
  intros L. assert (K : forall b, sweep 16 0 (fun x => Bool.eqb (parity (Zbits 16 (crc_bit x b))) (xorb (parity (Zbits 16 x)) b)) = true)
    by (intros []; vm_compute; reflexivity).
  apply Bool.eqb_prop. exact (sweep16 _ (K b) x L).
Qed.
Lemma crc_parity l : forall x, 0 <= x < 65536 -> parity (Zbits 16 (crc_bits x l)) = xorb (parity (Zbits 16 x)) (parity l).
Proof.
  induction l as [|b l IH]; intros x L; cbn [crc_bits fold_left parity fold_right].
  - rewrite xorb_false_r. reflexivity.
  - fold (crc_bits (crc_bit x b) l). rewrite IH by (apply crc_bit_range; exact L). rewrite crc_bit_parity by exact L.
    apply xorb_assoc.
Qed.
Lemma odd_detected e : Nat.odd (weight e) = true -> crc_bits 0 e <> 0.
Proof.
  intros O E. pose proof (crc_parity e 0 ltac:(lia)) as K. rewrite E, (parity_weight e), O in K. discriminate.
Qed.

(** ** Two bits *)
Fixpoint zeros_check (n : nat) (x : Z) : bool :=
  match n with O => true | S n => negb (crc_bit x true =? 0) && zeros_check n (crc_bit x false) end.
Lemma zeros_check_spec n : forall x d, zeros_check n x = true -> (d < n)%nat ->
  crc_bit (crc_bits x (repeat false d)) true <> 0.
Proof.
  induction n as [|n IH]; intros x d C L; [lia|]. cbn [zeros_check] in C. apply andb_prop in C. destruct C as [C1 C2].
  destruct d as [|d]; [cbn [repeat crc_bits fold_left]; lia|]. cbn [repeat crc_bits fold_left]. apply (IH _ d C2). lia.
Qed.
Lemma weight0 l : weight l = 0%nat -> l = repeat false (length l).
Proof.
  unfold weight. induction l as [|[] l IH]; cbn [filter length repeat]; intros W; [reflexivity | discriminate | f_equal; auto].
Qed.
Lemma weight_split l n : weight l = S n -> exists a r, l = repeat false a ++ true :: r /\ weight r = n.
Proof.
  unfold weight. induction l as [|[] l IH]; cbn [filter length]; intros W; [discriminate | |].
  - injection W as W. exists 0%nat, l. auto.
  - destruct (IH W) as (a & r & -> & Wr). exists (S a), r. auto.
Qed.
Lemma double_detected e : weight e = 2%nat -> zlen e <= 32767 -> crc_bits 0 e <> 0.
Proof.
  intros W L E. destruct (weight_split _ _ W) as (a & r & -> & W1). destruct (weight_split _ _ W1) as (d & r2 & -> & W2).
  rewrite (weight0 _ W2) in E.
  rewrite crc_bits_app, crc_zeros in E. cbn [crc_bits fold_left] in E. fold (crc_bits (crc_bit 0 true)) in E.
  change (fold_left crc_bit ?l ?x) with (crc_bits x l) in E. rewrite crc_bits_app in E.
  cbn [crc_bits fold_left] in E. change (fold_left crc_bit ?l ?x) with (crc_bits x l) in E.
  apply crc_zero_inj in E.
  - assert (K : zeros_check (Z.to_nat 32766) (crc_bit 0 true) = true) by (vm_compute; reflexivity).
    revert E. apply (zeros_check_spec _ _ _ K). unfold zlen in L. rewrite app_length in L. cbn [length] in L.
    rewrite app_length, !repeat_length in L. cbn [length] in L. lia.
  - apply crc_bit_range, crc_bits_range, crc_bit_range. lia.
Qed.

(** ** Frames *)
Definition detectable (e : list bool) : Prop := burst 16 e \/ Nat.odd (weight e) = true \/ (weight e = 2%nat /\ zlen e <= 32767).
Lemma diff_zero a : forall b, length a = length b -> diff a b = repeat false (length (diff a b)) -> a = b.
Proof.
  induction a as [|x a IH]; intros [|y b] L E; try discriminate; [reflexivity|].
  cbn [diff length repeat] in E. injection E as E1 E2. injection L as L. f_equal; [|apply IH; assumption].
  destruct x, y; (reflexivity || discriminate).
Qed.
Lemma crc_detects p w : Forall is_byte p -> Forall is_byte w -> length w = length (protected p) -> w <> protected p ->
  (burst 16 (diff (bytes_bits (protected p)) (bytes_bits w))
   \/ Nat.odd (weight (diff (bytes_bits (protected p)) (bytes_bits w))) = true
   \/ (weight (diff (bytes_bits (protected p)) (bytes_bits w)) = 2%nat /\ zlen w <= 4095)) ->
  ~ exists p', w = protected p'.
Proof.
  intros Fp Fw L N D (p' & ->).
  assert (Lp : length p = length p').
  { unfold protected in L. destruct (calculate_crc p), (calculate_crc p'). rewrite !app_length in L. cbn [length] in L. lia. }
  assert (Lb : length (bytes_bits (protected p)) = length (bytes_bits (protected p'))) by (rewrite !bytes_bits_length; lia).
  pose proof (undetected p p' Lp) as U. destruct D as [D | [D | [D Lw]]].
  - apply N. symmetry. apply bytes_bits_inj.
    + unfold protected in *. pose proof (calc_bytes p) as [H1 H2]. destruct (calculate_crc p). cbn [fst snd] in *.
      apply Forall_app. split; [exact Fp | repeat apply Forall_cons; auto].
    + exact Fw.
    + apply diff_zero; [exact Lb | apply burst_zero; assumption].
  - exact (odd_detected _ D U).
  - refine (double_detected _ D _ U).
    assert (Ld : forall a b, length a = length b -> length (diff a b) = length b).
    { induction a as [|x a IH]; intros [|y b] Hl; try discriminate; [reflexivity|]. cbn [diff length]. f_equal. apply IH. injection Hl; auto. }
    unfold zlen in *. rewrite Ld by exact Lb. rewrite bytes_bits_length. lia.
Qed.
(** a frame whose payload or CRC bytes were hit is not delivered *)
Lemma corrupted_rejected lib q c t p w h l : sp_buf q = [] -> is_byte c -> is_byte t -> is_payload p ->
  Forall is_byte (w ++ [h; l]) -> length w = length p -> w ++ [h; l] <> protected p ->
  (burst 16 (diff (bytes_bits (protected p)) (bytes_bits (w ++ [h; l])))
   \/ Nat.odd (weight (diff (bytes_bits (protected p)) (bytes_bits (w ++ [h; l])))) = true
   \/ weight (diff (bytes_bits (protected p)) (bytes_bits (w ++ [h; l]))) = 2%nat) ->
  forall rest, Forall is_byte rest ->
  (exists q' e, sparse lib q ([192; 0; c; t; zlen w; h; l] ++ w ++ rest) = (q', Err e)) \/
  (exists q' r es n, sparse lib q ([192; 0; c; t; zlen w; h; l] ++ w ++ rest) = (q', Ok r)
     /\ pr_errors r = mkPErr ParseError n :: es
     /\ decodes (sp_skip q) ([0; c; t; zlen w; h; l] ++ w ++ rest) (pr_msgs r)).
Proof.
  intros B Bc Bt [Fp Lp] Fw Lw N D rest Fr.
  assert (Fhl : is_byte h /\ is_byte l /\ Forall is_byte w).
  { apply Forall_app in Fw. destruct Fw as [Fw Fhl]. inversion Fhl as [|? ? Bh F1]; subst. inversion F1; subst. auto. }
  destruct Fhl as (Bh & Bl & Fw').
  assert (Lz : zlen w = zlen p) by (unfold zlen; lia).
  assert (X : calculate_crc w <> (h, l)).
  { intros Ec. apply (crc_detects p (w ++ [h; l]) Fp Fw).
    - unfold protected. destruct (calculate_crc p). rewrite !app_length, Lw. reflexivity.
    - exact N.
    - destruct D as [D|[D|D]]; [left; exact D | right; left; exact D | right; right; split; [exact D|]].
      rewrite zlen_app. unfold zlen in *. cbn [length]. lia.
    - exists w. unfold protected. rewrite Ec. reflexivity. }
  assert (Pw : is_payload w) by (split; [exact Fw' | lia]).
  set (buf := [192; 0; c; t; zlen w; h; l] ++ w ++ rest).
  assert (A : attempt (sp_skip q) buf = (Some c, Err ParseError)).
  { unfold buf. cbn [app]. rewrite attempt_full by assumption.
    destruct (calculate_crc w) as [a b]. cbn [fst snd].
    destruct (Z.eqb_spec a h) as [->|]; [|reflexivity]. destruct (Z.eqb_spec b l) as [->|]; [congruence | reflexivity]. }
  assert (Ft : Forall is_byte ([0; c; t; zlen w; h; l] ++ w ++ rest)).
  { pose proof (zlen_nonneg w). cbn [app]. repeat apply Forall_cons; try assumption; try (unfold is_byte; lia).
    apply Forall_app; auto. }
  assert (Fb : Forall is_byte buf) by (constructor; [unfold is_byte; lia | exact Ft]).
  assert (Bq : Forall is_byte (sp_buf q)) by (rewrite B; constructor).
  set (tl := [0; c; t; zlen w; h; l] ++ w ++ rest) in *.
  change buf with (192 :: tl) in *.
  assert (Fd : Forall is_byte (drop_c0 tl)) by (apply drop_c0_bytes; exact Ft).
  destruct (runs_total lib (sp_skip q) _ _ Fd (Nat.le_refl _)) as (ms & es & cs & pd & cr & fin & R).
  assert (R1 : runs lib (sp_skip q) (sp_buf q ++ 192 :: tl) ms (mkPErr ParseError (snd (skip_bad (192 :: tl))) :: es)
               (olist (Some c) ++ cs) pd cr fin).
  { rewrite B. cbn [app]. eapply runs_skip; [discriminate | exact A | reflexivity | reflexivity |].
    rewrite skip_bad_buf. exact R. }
  change ([192; 0; c; t; zlen w; h; l] ++ w ++ rest) with (192 :: tl).
  rewrite (sparse_runs _ _ _ _ _ _ _ _ _ Bq Fb R1). destruct cr; [left; eauto|]. right.
  do 4 eexists. split; [reflexivity|]. split; [reflexivity|]. cbn [pr_msgs].
  destruct (drop_c0_suffix tl) as (pre & E & _). rewrite E. apply decodes_app. eapply runs_decodes; [exact R | exact Fd].
Qed.
