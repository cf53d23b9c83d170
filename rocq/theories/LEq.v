From Verif Require Import Bits LBits LTypes LAlp SEq.

Lemma actcond_eq_iff a b : actcond_eq a b = true <-> a = b.
Proof. destruct a, b; split; (reflexivity || discriminate). Qed.
Lemma storage_eq_iff a b : storage_eq a b = true <-> a = b.
Proof. destruct a, b; split; (reflexivity || discriminate). Qed.
Lemma coding_eq_iff a b : coding_eq a b = true <-> a = b.
Proof. destruct a, b; split; (reflexivity || discriminate). Qed.
Lemma class_eq_iff a b : class_eq a b = true <-> a = b.
Proof. destruct a, b; split; (reflexivity || discriminate). Qed.
Lemma band_eq_iff a b : band_eq a b = true <-> a = b.
Proof. destruct a, b; split; (reflexivity || discriminate). Qed.
Lemma perm_eq_iff a b : perm_dict_eq a b = true <-> a = b.
Proof.
  destruct a, b. unfold perm_dict_eq. cbn. rewrite !Bool.andb_true_iff, !Bool.eqb_true_iff.
  split; [intuition congruence | intros H; injection H; intuition].
Qed.
Lemma prop_eq_iff a b : prop_dict_eq a b = true <-> a = b.
Proof.
  destruct a, b. unfold prop_dict_eq. cbn. rewrite !Bool.andb_true_iff, !Bool.eqb_true_iff, actcond_eq_iff, storage_eq_iff.
  split; [intuition congruence | intros H; injection H; intuition].
Qed.
Lemma fh_eq_iff a b : fh_dict_eq a b = true <-> a = b.
Proof.
  destruct a, b. unfold fh_dict_eq. cbn. rewrite !Bool.andb_true_iff, perm_eq_iff, prop_eq_iff, !Z.eqb_eq.
  split; [intuition congruence | intros H; injection H; intuition].
Qed.
Lemma ch_eq_iff a b : ch_dict_eq a b = true <-> a = b.
Proof.
  destruct a, b. unfold ch_dict_eq. cbn. rewrite !Bool.andb_true_iff, coding_eq_iff, class_eq_iff, band_eq_iff.
  split; [intuition congruence | intros H; injection H; intuition].
Qed.

(** what == means *)
Lemma py_eq_iff a b : py_eq a b = true <->
  match a, b with
  | VLength l, VNumber false z | VNumber false z, VLength l => len_value l = z
  | VNumber _ x, VNumber _ y => x = y
  | _, _ => a = b
  end.
Proof.
  destruct a as [x|x|x|x|x|[] x|x], b as [y|y|y|y|y|[] y|y]; unfold py_eq; cbn;
    rewrite ?fh_eq_iff, ?prop_eq_iff, ?perm_eq_iff, ?ch_eq_iff, ?Z.eqb_eq, ?Nat.eqb_eq;
    try (split; intros; congruence); try (split; intros; discriminate); try tauto.
  destruct x, y; cbn. split; intros; congruence.
Qed.

Lemma codec_inj {A} wf layout ser (p : P A) a b bs :
  codec wf layout ser p -> wf a -> wf b -> ser a = Ok bs -> ser b = Ok bs -> a = b.
Proof.
  intros C Wa Wb Ea Eb.
  destruct (C a Wa) as [(x & Ex & Fx & Lx) Pa], (C b Wb) as [(y & Ey & Fy & Ly) Pb].
  assert (x = y) by congruence. subst y.
  pose proof (Pa 0%nat []) as Ha. pose proof (Pb 0%nat []) as Hb.
  rewrite <- Lx in Ha. rewrite <- Ly in Hb. rewrite Ha in Hb. congruence.
Qed.
Lemma codec_total {A} wf layout ser (p : P A) a : codec wf layout ser p -> wf a -> exists bs, ser a = Ok bs.
Proof. intros C W. destruct (C a W) as [(x & Ex & _) _]. eauto. Qed.

Lemma eq_same_bytes a b : class_of_value a = class_of_value b -> value_wf a -> value_wf b -> has_ne a ->
  (py_eq a b = true <-> exists bytes, stands_for a bytes /\ stands_for b bytes).
Proof.
  unfold stands_for. intros C Wa Wb N. rewrite py_eq_iff.
  destruct a as [x|x|x|x|x|[] x|x], b as [y|y|y|y|y|[] y|y]; try discriminate C; try (destruct N; fail); cbn in *.
  - split; [intros [= ->] | intros (bs & Ea & Eb); f_equal].
    + destruct (codec_total _ _ _ _ y len_codec Wb) as [bs E]. exists bs. rewrite E. auto.
    + apply (codec_inj _ _ _ _ x y bs len_codec Wa Wb); congruence.
  - split; [intros [= ->] | intros (bs & Ea & Eb); f_equal].
    + destruct (codec_total _ _ _ _ y fh_codec Wb) as [bs E]. exists bs. rewrite E. auto.
    + apply (codec_inj _ _ _ _ x y bs fh_codec Wa Wb); congruence.
  - split; [intros [= ->] | intros (bs & Ea & Eb); f_equal].
    + destruct (codec_total _ _ _ _ y prop_codec I) as [bs E]. exists bs. rewrite E. auto.
    + apply (codec_inj _ _ _ _ x y bs prop_codec I I); congruence.
  - split; [intros [= ->] | intros (bs & Ea & Eb); f_equal].
    + destruct (codec_total _ _ _ _ y perm_codec I) as [bs E]. exists bs. rewrite E. auto.
    + apply (codec_inj _ _ _ _ x y bs perm_codec I I); congruence.
  - split; [intros [= ->] | intros (bs & Ea & Eb); f_equal].
    + destruct (codec_total _ _ _ _ y ch_codec I) as [bs E]. exists bs. rewrite E. auto.
    + apply (codec_inj _ _ _ _ x y bs ch_codec I I); congruence.
Qed.

Lemma eq_other_class a b : class_of_value a <> class_of_value b ->
  (py_eq a b = true <->
   (exists l, a = VLength l /\ b = VNumber false (len_value l))
   \/ (exists l, b = VLength l /\ a = VNumber false (len_value l))
   \/ (exists z, a = VNumber false z /\ b = VNumber true z)
   \/ (exists z, a = VNumber true z /\ b = VNumber false z)).
Proof.
  intros C. rewrite py_eq_iff.
  destruct a as [x|x|x|x|x|[] x|x], b as [y|y|y|y|y|[] y|y]; try (exfalso; apply C; reflexivity);
    (split; [intros H; try discriminate H; try subst; eauto 9
            | intros [(l & A & B) | [(l & A & B) | [(z & A & B) | (z & A & B)]]]; congruence]).
Qed.

Lemma eq_refl_all a : py_eq a a = true.
Proof. apply py_eq_iff. destruct a as [?|?|?|?|?|[] ?|?]; reflexivity. Qed.
Lemma eq_sym_all a b : py_eq a b = py_eq b a.
Proof.
  apply Bool.eq_iff_eq_true. rewrite !py_eq_iff.
  destruct a as [x|x|x|x|x|[] x|x], b as [y|y|y|y|y|[] y|y]; split; intros H; congruence.
Qed.
Lemma eq_trans_int a b c : class_of_value a <> CLong -> class_of_value b <> CLong -> class_of_value c <> CLong ->
  py_eq a b = true -> py_eq b c = true -> py_eq a c = true.
Proof.
  rewrite !py_eq_iff. intros A B C.
  destruct a as [x|x|x|x|x|[] x|x], b as [y|y|y|y|y|[] y|y], c as [z|z|z|z|z|[] z|z];
    try (exfalso; apply A; reflexivity); try (exfalso; apply B; reflexivity); try (exfalso; apply C; reflexivity);
    intros H K; try discriminate H; try discriminate K; try congruence.
  subst. destruct x, z. cbn in *. congruence.
Qed.
Lemma eq_trans_long : ~ (forall a b c, py_eq a b = true -> py_eq b c = true -> py_eq a c = true).
Proof.
  intros H. specialize (H (VLength (mkLength 5)) (VNumber false 5) (VNumber true 5) eq_refl eq_refl). discriminate H.
Qed.

Lemma ne_spec a b : (neither a b -> py_eq a b = false /\ py_ne a b = false)
  /\ (~ neither a b -> py_ne a b = negb (py_eq a b)).
Proof.
  unfold neither, is_channel, has_ne, py_ne, py_eq.
  destruct a as [x|x|x|x|x|[] x|x], b as [y|y|y|y|y|[] y|y]; cbn;
    (split; [intros H | intros H]);
    try (split; reflexivity); try reflexivity;
    try (exfalso; apply H; first [ left; split; [reflexivity | discriminate]
                                 | right; split; [reflexivity | exact (fun f => f)] ]; fail);
    try (exfalso; destruct H as [[H1 H2] | [H1 H2]]; first [ discriminate H1 | apply H2; reflexivity | apply H2; exact I ]; fail).
Qed.
Lemma ne_sym : ~ (forall a b, py_ne a b = py_ne b a).
Proof.
  intros H. specialize (H (VLength (mkLength 5)) (VChannelHeader (mkCH PN9 LO_RATE BAND_868))). discriminate H.
Qed.
