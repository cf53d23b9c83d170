(** Lemmas for C92 *)
From Coq Require Import ZifyBool ZifyNat Lia FinFun.
From Verif Require Import SUndetected LCrc LRecover2.
Open Scope list_scope.
Open Scope Z_scope.
Ltac Zify.zify_post_hook ::= Z.div_mod_to_equations.

(** ** The register, backwards *)
Definition unbit (r : Z) : Z :=
  Z.shiftr (Z.lxor r (if Z.testbit r 0 then 4129 else 0)) 1 + (if Z.testbit r 0 then 32768 else 0).
Lemma unbit_ok r : 0 <= r < 65536 -> 0 <= unbit r < 65536 /\ crc_bit (unbit r) false = r.
Proof.
  intros L. assert (K : sweep 16 0 (fun r => (0 <=? unbit r) && (unbit r <? 65536) && (crc_bit (unbit r) false =? r)) = true) by (vm_compute; reflexivity).
  pose proof (sweep16 _ K r L). lia.
Qed.
Lemma back_zeros n : forall r, 0 <= r < 65536 -> exists u, 0 <= u < 65536 /\ crc_bits u (repeat false n) = r.
Proof.
  induction n as [|n IH]; intros r L; [exists r; auto|]. destruct (IH r L) as (u & Lu & E).
  destruct (unbit_ok u Lu) as [R U]. exists (unbit u). split; [exact R|]. cbn [repeat crc_bits fold_left]. rewrite U. exact E.
Qed.
Lemma zero_diff l : diff l (repeat false (length l)) = l.
Proof. induction l as [|b l IH]; [reflexivity|]. cbn [length repeat diff]. rewrite xorb_false_r, IH. reflexivity. Qed.
Lemma lxor_range x y : 0 <= x < 65536 -> 0 <= y < 65536 -> 0 <= Z.lxor x y < 65536.
Proof.
  intros X Y. assert (H : forall z, 0 <= z < 65536 <-> z = z mod 2 ^ 16) by (intros z; change (2 ^ 16) with 65536; lia).
  apply H. apply Z.bits_inj'. intros n Hn. destruct (Z.ltb_spec n 16).
  - rewrite Z.mod_pow2_bits_low by lia. reflexivity.
  - rewrite Z.mod_pow2_bits_high by lia. rewrite Z.lxor_spec. apply H in X, Y. rewrite X, Y.
    rewrite !Z.mod_pow2_bits_high by lia. reflexivity.
Qed.
(** any register value can be reached behind any bits *)
Lemma back_bits l r : 0 <= r < 65536 -> exists u, 0 <= u < 65536 /\ crc_bits u l = r.
Proof.
  intros L. destruct (back_zeros (length l) (Z.lxor r (crc_bits 0 l))) as (u & Lu & E).
  { apply lxor_range; [exact L | apply crc_bits_range; lia]. }
  exists u. split; [exact Lu|]. pose proof (crc_bits_linear l (repeat false (length l)) 0 u ltac:(rewrite repeat_length; reflexivity)) as K.
  rewrite zero_diff, E, Z.lxor_0_l in K. rewrite K. rewrite Z.lxor_comm, Z.lxor_assoc, Z.lxor_nilpotent, Z.lxor_0_r. reflexivity.
Qed.
(** and from any with sixteen bits *)
Lemma any_to_any s u : 0 <= s < 65536 -> 0 <= u < 65536 -> exists v, 0 <= v < 65536 /\ crc_bits s (Zbits 16 v) = u.
Proof.
  intros Ls Lu. destruct (back_zeros 16 u Lu) as (w & Lw & E). exists (Z.lxor s w). pose proof (lxor_range s w Ls Lw) as R.
  split; [exact R|].
  pose proof (crc_bits_linear (Zbits 16 (Z.lxor s w)) (repeat false 16) (Z.lxor s w) w ltac:(rewrite Zbits_length, repeat_length; reflexivity)) as K.
  replace (repeat false 16) with (repeat false (length (Zbits 16 (Z.lxor s w)))) in K at 1 by (rewrite Zbits_length; reflexivity).
  rewrite zero_diff, E, crc_self in K by exact R. rewrite Z.lxor_assoc, Z.lxor_nilpotent, Z.lxor_0_r, Z.lxor_0_l in K. exact K.
Qed.
Lemma two_bytes v : 0 <= v < 65536 -> is_byte (v / 256) /\ is_byte (v mod 256) /\ bytes_bits [v / 256; v mod 256] = Zbits 16 v.
Proof.
  intros L. unfold is_byte. split; [lia|]. split; [lia|].
  assert (K : sweep 16 0 (fun x => if list_eq_dec Bool.bool_dec (bytes_bits [x / 256; x mod 256]) (Zbits 16 x) then true else false) = true) by (vm_compute; reflexivity).
  pose proof (sweep16 _ K v L) as X. cbv beta in X. destruct (list_eq_dec _ _ _); [assumption | discriminate].
Qed.
Lemma reach s e r : 0 <= s < 65536 -> 0 <= r < 65536 -> exists x y, is_byte x /\ is_byte y /\ crc_bits s (bytes_bits ([x; y] ++ e)) = r.
Proof.
  intros Ls Lr. destruct (back_bits (bytes_bits e) r Lr) as (u & Lu & Eu). destruct (any_to_any s u Ls Lu) as (v & Lv & Ev).
  destruct (two_bytes v Lv) as (Bx & By & Eb). exists (v / 256), (v mod 256). refine (conj Bx (conj By _)).
  rewrite bytes_bits_app, crc_bits_app, Eb, Ev. exact Eu.
Qed.
Lemma reach_unique s e x y x' y' : is_byte x -> is_byte y -> is_byte x' -> is_byte y' ->
  crc_bits s (bytes_bits ([x; y] ++ e)) = crc_bits s (bytes_bits ([x'; y'] ++ e)) -> x = x' /\ y = y'.
Proof.
  intros Bx By Bx' By' E.
  assert (L : length (bytes_bits ([x; y] ++ e)) = length (bytes_bits ([x'; y'] ++ e))) by (rewrite !bytes_bits_length; reflexivity).
  pose proof (crc_bits_linear _ _ s s L) as K. rewrite E, !Z.lxor_nilpotent in K.
  apply burst_zero in K; [|apply (tail_burst [] [x; y] [x'; y'] e); cbn; lia].
  assert (Eb : bytes_bits ([x; y] ++ e) = bytes_bits ([x'; y'] ++ e)) by (apply diff_zero; assumption).
  rewrite !bytes_bits_app in Eb. apply app_eq_len in Eb; [|rewrite !bytes_bits_length; reflexivity]. destruct Eb as [Eb _].
  apply bytes_bits_inj in Eb; [injection Eb; auto | |]; repeat constructor; try apply Bx; try apply By; try apply Bx'; try apply By'.
Qed.
Lemma crc_value w h l : is_byte h -> is_byte l -> calculate_crc w = (h, l) <-> crc16 w = 256 * h + l.
Proof.
  intros Bh Bl. unfold calculate_crc. pose proof (crc16_range w) as R. generalize dependent (crc16 w). intros x R.
  assert (K : sweep 16 0 (fun x => (Z.land (Z.shiftr x 8) 255 =? x / 256) && (Z.land x 255 =? x mod 256)) = true) by (vm_compute; reflexivity).
  pose proof (sweep16 _ K x R) as X. cbv beta in X. clear K. apply andb_true_iff in X. destruct X as [X1 X2].
  apply Z.eqb_eq in X1, X2. rewrite X1, X2. clear X1 X2. unfold is_byte in *.
  pose proof (Z.div_mod x 256 ltac:(discriminate)) as D. split.
  - intros E. injection E as E1 E2. rewrite E1, E2 in D. exact D.
  - intros ->. f_equal; [symmetry; apply (Z.div_unique _ _ _ l); lia | symmetry; apply (Z.mod_unique _ _ h); lia].
Qed.

Lemma two_free_bytes a e h l : Forall is_byte a -> Forall is_byte e -> is_byte h -> is_byte l ->
  exists x y, is_byte x /\ is_byte y /\ calculate_crc (a ++ [x; y] ++ e) = (h, l)
  /\ forall x' y', is_byte x' -> is_byte y' -> calculate_crc (a ++ [x'; y'] ++ e) = (h, l) -> x' = x /\ y' = y.
Proof.
  intros Fa Fe Bh Bl. pose proof (crc_bits_range (bytes_bits a) 65535 ltac:(lia)) as Ra.
  assert (U : forall x y, crc16 (a ++ [x; y] ++ e) = crc_bits (crc_bits 65535 (bytes_bits a)) (bytes_bits ([x; y] ++ e))).
  { intros x y. unfold crc16. rewrite bytes_bits_app, crc_bits_app. reflexivity. }
  destruct (reach (crc_bits 65535 (bytes_bits a)) e (256 * h + l) Ra ltac:(unfold is_byte in *; lia)) as (x & y & Bx & By & E).
  exists x, y. refine (conj Bx (conj By (conj _ _))).
  - apply crc_value; [assumption..|]. rewrite U. exact E.
  - intros x' y' Bx' By' E'. apply crc_value in E'; [|assumption..]. rewrite U, <- E in E'.
    apply (reach_unique _ e x' y' x y) in E'; assumption.
Qed.

(** ** Counting *)
Lemma byte_values_in b : In b byte_values <-> is_byte b.
Proof.
  unfold byte_values, is_byte. rewrite in_map_iff. split.
  - intros (n & <- & I). apply in_seq in I. lia.
  - intros L. exists (Z.to_nat b). split; [lia|]. apply in_seq. lia.
Qed.
Lemma byte_values_nodup : NoDup byte_values.
Proof. apply FinFun.Injective_map_NoDup; [intros x y E; lia | apply seq_NoDup]. Qed.
Lemma contents_in n : forall w, In w (contents n) <-> length w = n /\ Forall is_byte w.
Proof.
  induction n as [|n IH]; intros w; cbn [contents].
  - cbn [In]. split; [intros [<-|[]]; auto | intros [L _]; destruct w; [auto|discriminate]].
  - rewrite in_flat_map. split.
    + intros (b & Ib & I). apply in_map_iff in I. destruct I as (v & <- & I). apply IH in I. destruct I as [<- F].
      split; [reflexivity|]. constructor; [apply byte_values_in; exact Ib | exact F].
    + intros [L F]. destruct w as [|b v]; [discriminate|]. inversion F as [|? ? Bb Fv]; subst.
      exists b. split; [apply byte_values_in; exact Bb|]. apply in_map. apply IH. auto.
Qed.
Lemma nodup_join {A} (a b : list A) : NoDup a -> NoDup b -> (forall x, In x a -> ~ In x b) -> NoDup (a ++ b).
Proof.
  intros N M D. induction N as [|x a I N IH]; [exact M|]. cbn [app]. constructor.
  - rewrite in_app_iff. intros [H|H]; [exact (I H) | exact (D x (or_introl eq_refl) H)].
  - apply IH. intros y H. apply D. right. exact H.
Qed.
Lemma contents_nodup n : NoDup (contents n).
Proof.
  induction n as [|n IH]; cbn [contents]; [constructor; [intros [] | constructor]|].
  assert (N : NoDup byte_values) by apply byte_values_nodup. revert N. generalize byte_values. intros l N.
  induction N as [|b l I N IHl]; [constructor|]. cbn [flat_map]. apply nodup_join.
  - apply FinFun.Injective_map_NoDup; [intros x y E; injection E; auto | exact IH].
  - exact IHl.
  - intros w Hw Hl. apply in_map_iff in Hw. destruct Hw as (v & <- & _). apply in_flat_map in Hl.
    destruct Hl as (c & Ic & Hc). apply in_map_iff in Hc. destruct Hc as (v' & E & _). injection E as -> _. exact (I Ic).
Qed.
Lemma filter_map {A B} (g : A -> B) f l : filter f (map g l) = map g (filter (fun x => f (g x)) l).
Proof. induction l as [|x l IH]; [reflexivity|]. cbn [map filter]. rewrite IH. destruct (f (g x)); reflexivity. Qed.
Lemma count_step (f : list Z -> bool) n k : (forall b, is_byte b -> zlen (filter (fun w => f (b :: w)) (contents n)) = k) ->
  how_many f (S n) = 256 * k.
Proof.
  intros H. unfold how_many. cbn [contents]. change 256 with (zlen byte_values).
  assert (F : Forall is_byte byte_values) by (apply Forall_forall; intros b Hb; apply byte_values_in; exact Hb).
  revert F. generalize byte_values. intros l F. induction F as [|b l Hb F IH]; [reflexivity|].
  cbn [flat_map]. rewrite filter_app, filter_map, zlen_app, IH. unfold zlen in *. rewrite map_length, (H b Hb). cbn [length]. lia.
Qed.
Definition reg_is (s r : Z) (w : list Z) : bool := crc_bits s (bytes_bits w) =? r.
Lemma count_reg r : 0 <= r < 65536 -> forall n s, 0 <= s < 65536 -> how_many (reg_is s r) (2 + n) = 256 ^ Z.of_nat n.
Proof.
  intros Lr. induction n as [|n IH]; intros s Ls.
  - change (256 ^ Z.of_nat 0) with 1. destruct (reach s [] r Ls Lr) as (x & y & Bx & By & E). cbn [app] in E.
    unfold how_many. change (2 + 0)%nat with 2%nat.
    assert (U : forall w, In w (filter (reg_is s r) (contents 2)) <-> w = [x; y]).
    { intros w. rewrite filter_In, contents_in. unfold reg_is. split.
      - intros [[L F] C]. destruct w as [|x' [|y' [|? ?]]]; try discriminate L. inversion F as [|? ? Bx' F1]; subst. inversion F1 as [|? ? By' _]; subst.
        destruct (reach_unique s [] x' y' x y Bx' By' Bx By) as [-> ->]; [cbn [app]; lia | reflexivity].
      - intros ->. split; [split; [reflexivity | repeat apply Forall_cons; auto] | lia]. }
    pose proof (NoDup_filter (reg_is s r) (contents_nodup 2)) as N.
    destruct (filter (reg_is s r) (contents 2)) as [|u [|v l]].
    + exfalso. exact (proj2 (U [x; y]) eq_refl).
    + reflexivity.
    + exfalso. pose proof (proj1 (U u) (or_introl eq_refl)) as ->. pose proof (proj1 (U v) (or_intror (or_introl eq_refl))) as ->.
      inversion N as [|? ? I _]; subst. apply I. left. reflexivity.
  - replace (256 ^ Z.of_nat (S n)) with (256 * 256 ^ Z.of_nat n) by (rewrite Nat2Z.inj_succ, Z.pow_succ_r by lia; reflexivity).
    change (2 + S n)%nat with (S (2 + n)). apply count_step. intros b Bb.
    rewrite <- (IH (crc_bits s (bytes_bits [b]))) by (apply crc_bits_range; exact Ls). reflexivity.
Qed.
Lemma has_crc_iff h l w : has_crc h l w = true <-> calculate_crc w = (h, l).
Proof.
  unfold has_crc. destruct (calculate_crc w) as [h' l']. rewrite andb_true_iff, !Z.eqb_eq. split; [intros [-> ->]; reflexivity | intros E; injection E; auto].
Qed.
Lemma has_crc_reg h l w : is_byte h -> is_byte l -> has_crc h l w = reg_is 65535 (256 * h + l) w.
Proof.
  intros Bh Bl. apply Bool.eq_iff_eq_true. rewrite has_crc_iff, crc_value by assumption. unfold reg_is. rewrite Z.eqb_eq. reflexivity.
Qed.
Lemma count_crc h l n : is_byte h -> is_byte l -> how_many (has_crc h l) (2 + n) = 256 ^ Z.of_nat n.
Proof.
  intros Bh Bl. rewrite <- (count_reg (256 * h + l) ltac:(unfold is_byte in *; lia) n 65535 ltac:(lia)).
  unfold how_many. f_equal. apply filter_ext. intros w. apply has_crc_reg; assumption.
Qed.
Lemma count_all n : how_many (fun _ => true) n = 256 ^ Z.of_nat n.
Proof.
  induction n as [|n IH]; [reflexivity|].
  rewrite Nat2Z.inj_succ, Z.pow_succ_r by lia. rewrite <- IH. apply count_step. intros b _. reflexivity.
Qed.
Lemma contents_listed n : NoDup (contents n) /\ forall w, In w (contents n) <-> length w = n /\ Forall is_byte w.
Proof. split; [apply contents_nodup | apply contents_in]. Qed.
Lemma count_but_one f (p : list Z) l : NoDup l -> In p l -> f p = true ->
  zlen (filter (fun w => f w && negb (same_bytes w p)) l) = zlen (filter f l) - 1.
Proof.
  intros N. induction N as [|w l I N IH]; intros Ip Fp; [contradiction|]. cbn [filter].
  destruct (list_eq_dec Z.eq_dec w p) as [->|D].
  - unfold same_bytes at 1. destruct (list_eq_dec Z.eq_dec p p) as [_|C]; [|congruence]. rewrite Fp. cbn [andb negb].
    assert (E : filter (fun w => f w && negb (same_bytes w p)) l = filter f l).
    { apply filter_ext_in. intros w Hw. unfold same_bytes. destruct (list_eq_dec Z.eq_dec w p) as [->|_]; [contradiction | apply andb_true_r]. }
    rewrite E. unfold zlen. cbn [length]. lia.
  - destruct Ip as [C|Ip]; [congruence|]. specialize (IH Ip Fp). unfold same_bytes at 1. destruct (list_eq_dec Z.eq_dec w p) as [C|_]; [congruence|].
    cbn [negb]. rewrite andb_true_r. destruct (f w); [|exact IH]. unfold zlen in *. cbn [length]. lia.
Qed.
(** wrong payloads under the header of a frame *)
Lemma wrong_accepted p n : is_payload p -> length p = (2 + n)%nat ->
  let (h, l) := calculate_crc p in
  how_many (fun w => has_crc h l w && negb (same_bytes w p)) (2 + n) = 256 ^ Z.of_nat n - 1
  /\ how_many (fun w => negb (same_bytes w p)) (2 + n) = 256 ^ Z.of_nat (2 + n) - 1.
Proof.
  intros [F _] L. destruct (calculate_crc p) as [h l] eqn:C. pose proof (calc_bytes p) as [Bh Bl]. rewrite C in Bh, Bl. cbn [fst snd] in Bh, Bl.
  assert (I : In p (contents (2 + n))) by (apply contents_in; auto). unfold how_many at 1 2. split.
  - rewrite (count_but_one (has_crc h l) p _ (contents_nodup _) I) by (apply has_crc_iff; exact C).
    rewrite <- (count_crc h l n Bh Bl). reflexivity.
  - rewrite <- (count_all (2 + n)). exact (count_but_one (fun _ => true) p _ (contents_nodup _) I eq_refl).
Qed.
Lemma accepted_header c t p w : length w = length p -> calculate_crc w = calculate_crc p <-> header (frame c t w) = header (frame c t p).
Proof.
  intros L. unfold header, frame. destruct (calculate_crc w) as [h l], (calculate_crc p) as [h' l']. cbn [app firstn].
  unfold zlen. rewrite L. split; intros E; [injection E as -> ->; reflexivity | injection E as -> ->; reflexivity].
Qed.
Lemma altered c t p w : is_payload p -> Forall is_byte w -> length p = (2 + length w)%nat ->
  exists x y, is_byte x /\ is_byte y /\ frame c t (w ++ [x; y]) = header (frame c t p) ++ w ++ [x; y]
  /\ forall x' y', is_byte x' -> is_byte y' -> frame c t (w ++ [x'; y']) = header (frame c t p) ++ w ++ [x'; y'] -> x' = x /\ y' = y.
Proof.
  intros P F L. destruct (calculate_crc p) as [h l] eqn:C. pose proof (calc_bytes p) as [Bh Bl]. rewrite C in Bh, Bl. cbn [fst snd] in Bh, Bl.
  destruct (two_free_bytes w [] h l F (Forall_nil _) Bh Bl) as (x & y & Bx & By & E & U).
  assert (Hd : forall u v, frame c t (w ++ [u; v]) = header (frame c t p) ++ w ++ [u; v] <-> calculate_crc (w ++ [u; v]) = (h, l)).
  { intros u v. rewrite <- C. rewrite (accepted_header c t p (w ++ [u; v])) by (rewrite app_length, L; cbn [length]; lia).
    assert (S : frame c t (w ++ [u; v]) = header (frame c t (w ++ [u; v])) ++ w ++ [u; v]).
    { unfold header, frame. destruct (calculate_crc (w ++ [u; v])). reflexivity. }
    rewrite S at 1. split; intros H; [apply app_inv_tail in H; exact H | rewrite H; reflexivity]. }
  exists x, y. refine (conj Bx (conj By (conj _ _))).
  - apply Hd. exact E.
  - intros x' y' Bx' By' H. apply U; [assumption..|]. apply Hd in H. exact H.
Qed.
