(** Channel strings. *)
From Coq Require Import Ascii String ZifyBool ZifyNat.
From Verif Require Export LParse SChannel.
Close Scope string_scope.
Open Scope list_scope.
Open Scope Z_scope.
Ltac Zify.zify_post_hook ::= Z.div_mod_to_equations.

Definition res_is (r : res Z) (v : Z) : bool := match r with Ok x => x =? v | _ => false end.
(** all numbers below 65536, as two digits of base 256 *)
Definition sweep256 (f : Z -> bool) : bool :=
  forallb (fun a => forallb (fun b => f (256 * Z.of_nat a + Z.of_nat b)) (seq 0 256)) (seq 0 256).
Lemma sweep256_all f : sweep256 f = true -> forall i, 0 <= i <= 65535 -> f i = true.
Proof.
  intros T i H. unfold sweep256 in T. rewrite forallb_forall in T.
  assert (I1 : In (Z.to_nat (i / 256)) (seq 0 256)) by (apply in_seq; lia). apply T in I1.
  rewrite forallb_forall in I1.
  assert (I2 : In (Z.to_nat (i mod 256)) (seq 0 256)) by (apply in_seq; lia). apply I1 in I2.
  rewrite !Z2Nat.id in I2 by lia. rewrite <- Z.div_mod in I2 by lia. exact I2.
Qed.
Definition index_ok (i : Z) : bool := res_is (py_int (substring 0 3 (pad3 (dec_str i)))) (index_after i).
Lemma index_sweep_true : sweep256 index_ok = true.
Proof. vm_compute. reflexivity. Qed.
Lemma index_back i : 0 <= i <= 65535 -> py_int (substring 0 3 (pad3 (dec_str i))) = Ok (index_after i).
Proof.
  intros H. pose proof (sweep256_all _ index_sweep_true i H) as T. unfold index_ok, res_is in T.
  destruct (py_int _); [|discriminate]. f_equal. lia.
Qed.
Lemma index_after_range i : 0 <= i <= 65535 -> 0 <= index_after i <= 999.
Proof. intros H. unfold index_after. destruct (i <=? 999) eqn:?, (i <=? 9999) eqn:?; lia. Qed.
Lemma channel_back c : 0 <= cid_index c <= 65535 ->
  cid_from_string (cid_str c) =
  match ch_band (cid_header c), ch_coding (cid_header c) with
  | BAND_NOT_IMPL, _ => Err NotImplementedError
  | _, CodingRFU => Err NotImplementedError
  | _, _ => Ok (channel_after c)
  end.
Proof.
  intros H. destruct c as [[cod cl b] i]. cbn [cid_header cid_index ch_coding ch_class ch_band] in *.
  unfold cid_from_string, cid_str, channel_after. cbn [cid_header cid_index ch_coding ch_class ch_band].
  pose proof (index_back i H) as B. pose proof (index_after_range i H) as R.
  destruct b, cl, cod; try reflexivity;
    cbn [ch_str lstrip]; cbn -[py_int pad3 dec_str index_after];
    rewrite B; cbn [rbind]; unfold mk_channel_id; apply validated_ok; unfold in_range; lia.
Qed.
Lemma channel_back_iff c : 0 <= cid_index c <= 65535 ->
  (cid_from_string (cid_str c) = Ok c <->
   ch_class (cid_header c) <> LORA /\ ch_coding (cid_header c) <> CodingRFU
   /\ ch_band (cid_header c) <> BAND_NOT_IMPL /\ cid_index c <= 999).
Proof.
  intros H. rewrite channel_back by exact H. destruct c as [[cod cl b] i].
  cbn [cid_header cid_index ch_coding ch_class ch_band] in *. unfold channel_after, index_after.
  cbn [cid_header cid_index ch_coding ch_class ch_band]. split.
  - destruct b, cod; try discriminate; intros [= E1 E2]; (destruct (i <=? 999) eqn:?, (i <=? 9999) eqn:?, cl; try discriminate);
      repeat split; try discriminate; lia.
  - intros (N1 & N2 & N3 & L). replace (i <=? 999) with true by lia.
    destruct b, cod; try congruence; destruct cl; first [reflexivity | congruence].
Qed.
Definition text_ok (i : Z) : bool := (999 <? i) || res_is (py_int (index_text i)) i.
Lemma text_sweep_true : sweep256 text_ok = true.
Proof. vm_compute. reflexivity. Qed.
Lemma text_index i : 0 <= i <= 999 -> py_int (index_text i) = Ok i.
Proof.
  intros H. assert (H' : 0 <= i <= 65535) by lia. pose proof (sweep256_all _ text_sweep_true i H') as T. unfold text_ok, res_is in T.
  replace (999 <? i) with false in T by lia. cbn [orb] in T.
  destruct (py_int _); [|discriminate]. f_equal. lia.
Qed.
Lemma text_parsed c : has_text c -> cid_from_string (channel_text c) = Ok c.
Proof.
  intros (N1 & N2 & L). destruct c as [[cod cl b] i]. cbn [cid_header cid_index ch_coding ch_class ch_band] in *.
  unfold cid_from_string, channel_text. cbn [cid_header cid_index ch_coding ch_class ch_band].
  pose proof (text_index i L) as B. unfold index_text, digit_text in *.
  destruct b, cl, cod; try congruence; cbn -[py_int Z.to_N Z.add Z.div Z.modulo ascii_of_N] in *;
    rewrite B; cbn [rbind]; unfold mk_channel_id; apply validated_ok; unfold in_range; lia.
Qed.
Lemma from_string_wf s c : cid_from_string s = Ok c -> 0 <= cid_index c <= 65535
  /\ ch_coding (cid_header c) <> CodingRFU /\ ch_band (cid_header c) <> BAND_NOT_IMPL.
Proof.
  unfold cid_from_string, ch_from_string. intros H.
  destruct (band_from_string _) as [b|] eqn:Eb; cbn [rbind] in H; [|discriminate].
  destruct (char_at _ 3) as [c3|] eqn:E3; cbn [rbind] in H; [|discriminate].
  destruct (class_from_char c3) as [cl|] eqn:Ec; cbn [rbind] in H; [|discriminate].
  destruct (char_at _ 4) as [c4|] eqn:E4; cbn [rbind] in H; [|discriminate].
  destruct (coding_from_char c4) as [cod|] eqn:Ed; cbn [rbind] in H; [|discriminate].
  destruct (py_int _) as [i|]; cbn [rbind] in H; [|discriminate].
  unfold mk_channel_id in H. apply validated_inv in H as [V <-]. cbn [cid_index cid_header ch_coding ch_band].
  unfold in_range in V. refine (conj _ (conj _ _)).
  - lia.
  - unfold coding_from_char in Ed. repeat match type of Ed with (if ?x then _ else _) = _ => destruct x end; congruence.
  - unfold band_from_string in Eb. repeat match type of Eb with (if ?x then _ else _) = _ => destruct x end; congruence.
Qed.
