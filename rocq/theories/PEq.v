(** Comparing objects: property C60. *)
From Verif Require Import SEq LEq.

(** two valid objects of one class are equal exactly if they serialize to the
    same bytes *)
Theorem C60_equal_iff_same_bytes : forall a b,
  class_of_value a = class_of_value b -> value_wf a -> value_wf b -> has_ne a ->
  (py_eq a b = true <-> exists bytes, stands_for a bytes /\ stands_for b bytes).
Proof. exact eq_same_bytes. Qed.
Print Assumptions C60_equal_iff_same_bytes.

(** across classes only a length and an int of its value, and an int and a
    long of the same value are equal *)
Theorem C60_across_classes : forall a b, class_of_value a <> class_of_value b ->
  (py_eq a b = true <->
   (exists l, a = VLength l /\ b = VNumber false (len_value l))
   \/ (exists l, b = VLength l /\ a = VNumber false (len_value l))
   \/ (exists z, a = VNumber false z /\ b = VNumber true z)
   \/ (exists z, a = VNumber true z /\ b = VNumber false z)).
Proof. exact eq_other_class. Qed.
Print Assumptions C60_across_classes.

Theorem C60_reflexive : forall a, py_eq a a = true.
Proof. exact eq_refl_all. Qed.
Print Assumptions C60_reflexive.

Theorem C60_symmetric : forall a b, py_eq a b = py_eq b a.
Proof. exact eq_sym_all. Qed.
Print Assumptions C60_symmetric.

Theorem C60_transitive_without_longs : forall a b c,
  class_of_value a <> CLong -> class_of_value b <> CLong -> class_of_value c <> CLong ->
  py_eq a b = true -> py_eq b c = true -> py_eq a c = true.
Proof. exact eq_trans_int. Qed.
Print Assumptions C60_transitive_without_longs.

(** with longs it is not: Length(5) == 5 and 5 == 5L, but not Length(5) == 5L *)
Theorem C60_transitive_refuted :
  ~ (forall a b c, py_eq a b = true -> py_eq b c = true -> py_eq a c = true).
Proof. exact eq_trans_long. Qed.
Print Assumptions C60_transitive_refuted.

(** != is the negation of == except between a channel header and something
    else, where both can be false *)
Theorem C60_not_equal : forall a b, (neither a b -> py_eq a b = false /\ py_ne a b = false)
  /\ (~ neither a b -> py_ne a b = negb (py_eq a b)).
Proof. exact ne_spec. Qed.
Print Assumptions C60_not_equal.

(** so != is not even symmetric *)
Theorem C60_not_equal_symmetric_refuted : ~ (forall a b, py_ne a b = py_ne b a).
Proof. exact ne_sym. Qed.
Print Assumptions C60_not_equal_symmetric_refuted.

Example C60_case :
  let h s := VFileHeader (mkFH (mkPerm true false true true false true false true)
                             (mkProp true AC_WRITE PERMANENT) 64 255 s 300) in
  value_wf (h 239) /\ value_wf (h 240) /\ py_eq (h 239) (h 239) = true /\ py_eq (h 239) (h 240) = false
  /\ stands_for (h 239) [181; 163; 64; 255; 0; 0; 0; 239; 0; 0; 1; 44]
  /\ py_eq (VNumber false 65) (VLength (mkLength 65)) = true
  /\ neither (VChannelHeader (mkCH PN9 LO_RATE BAND_868)) (VNumber false 48).
Proof.
  cbn. unfold fh_wf, len_wf. cbn. repeat split; try (intro; discriminate); try reflexivity.
  left. split; [reflexivity | discriminate].
Qed.
