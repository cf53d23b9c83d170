(** Lemmas for C80. *)
From Coq Require Import Lia ZifyBool.
From Verif Require Import MBase MEq SEq LEq SHash.
Open Scope Z_scope.

Lemma hash_inj a b : address a -> address b -> hash_pointer a = hash_pointer b -> a = b.
Proof.
  intros [A A8] [B B8]. unfold hash_pointer.
  assert (a = 16 * (a / 16) + a mod 16) by (apply Z.div_mod; lia).
  assert (b = 16 * (b / 16) + b mod 16) by (apply Z.div_mod; lia).
  assert (0 <= a mod 16 < 16) by (apply Z.mod_pos_bound; lia).
  assert (0 <= b mod 16 < 16) by (apply Z.mod_pos_bound; lia).
  assert (a mod 16 = 0 \/ a mod 16 = 8) as RA.
  { assert (a mod 16 mod 8 = 0) by (rewrite <- A8; symmetry; apply Znumtheory.Zmod_div_mod; try lia; exists 2; lia).
    assert (a mod 16 mod 8 = a mod 16 - 8 * (a mod 16 / 8)) by (rewrite Z.mod_eq; lia).
    assert (0 <= a mod 16 / 8 < 2) by (split; [apply Z.div_pos|apply Z.div_lt_upper_bound]; lia). lia. }
  assert (b mod 16 = 0 \/ b mod 16 = 8) as RB.
  { assert (b mod 16 mod 8 = 0) by (rewrite <- B8; symmetry; apply Znumtheory.Zmod_div_mod; try lia; exists 2; lia).
    assert (b mod 16 mod 8 = b mod 16 - 8 * (b mod 16 / 8)) by (rewrite Z.mod_eq; lia).
    assert (0 <= b mod 16 / 8 < 2) by (split; [apply Z.div_pos|apply Z.div_lt_upper_bound]; lia). lia. }
  change (2 ^ 60) with 1152921504606846976. change (2 ^ 63) with 9223372036854775808.
  change (2 ^ 64) with 18446744073709551616 in *.
  set (qa := a / 16) in *. set (qb := b / 16) in *. set (ra := a mod 16) in *. set (rb := b mod 16) in *.
  clearbody qa qb ra rb. clear A8 B8.
  destruct (Z.ltb_spec (qa + ra * 1152921504606846976) 9223372036854775808);
  destruct (Z.ltb_spec (qb + rb * 1152921504606846976) 9223372036854775808);
  repeat match goal with |- context [if ?c then _ else _] => destruct c eqn:? end; lia.
Qed.

Lemma same_eq t u : t_addr t = t_addr u -> t_value t = t_value u -> same_or_equal t u = py_eq (t_value t) (t_value u).
Proof. intros A V. unfold same_or_equal, is_thing. rewrite A, Z.eqb_refl, V, eq_refl_all. reflexivity. Qed.
Lemma soe l t u : coherent l -> In t l -> In u l -> same_or_equal u t = py_eq (t_value u) (t_value t).
Proof.
  intros (_ & C & _) T U. destruct (Z.eqb_spec (t_addr u) (t_addr t)) as [E|N].
  - apply same_eq; auto.
  - unfold same_or_equal, is_thing. apply Z.eqb_neq in N. rewrite N. reflexivity.
Qed.
Lemma coherent_sub l l' : (forall t, In t l' -> In t l) -> coherent l -> coherent l'.
Proof. intros I (A & B & C). repeat split; eauto; apply A; auto. Qed.

Lemma by_value l t : coherent (t :: l) -> list_has l t = true <-> exists u, In u l /\ py_eq (t_value u) (t_value t) = true.
Proof.
  intros C. unfold list_has. rewrite existsb_exists. split; intros (u & I & E); exists u; (split; [exact I|]);
  rewrite (soe (t :: l)) in *; cbn; auto.
Qed.

(** what matches what *)
Lemma match_objects big l t u : coherent l -> In t l -> In u l -> an_object t -> an_object u ->
  matches big t u = true <-> t_addr u = t_addr t.
Proof.
  intros C T U OT OU. unfold matches. rewrite (soe l t u C T U).
  assert (forall x, an_object x -> py_hash big x = hash_pointer (t_addr x)) as H
    by (intros x O; unfold py_hash, an_object in *; destruct (t_value x); tauto).
  rewrite !H by assumption. split.
  - intros E. apply andb_prop in E as [E _]. apply Z.eqb_eq in E. destruct C as (A & _). apply hash_inj; auto.
  - intros E. destruct C as (_ & C & _). rewrite E, (C u t U T E), Z.eqb_refl, eq_refl_all. reflexivity.
Qed.
Lemma match_numbers big t u l' l'' x y : t_value t = VNumber l' x -> t_value u = VNumber l'' y ->
  t_addr t <> t_addr u -> matches big t u = true <-> x = y.
Proof.
  intros T U N. unfold matches, same_or_equal, is_thing, py_hash. rewrite T, U. cbn [py_eq eq_method].
  unfold py_eq. cbn [eq_method]. split.
  - intros E. apply andb_prop in E as [_ E]. apply Bool.orb_true_iff in E as [E|E]; [lia|]. lia.
  - intros ->. rewrite !Z.eqb_refl. apply Bool.orb_true_r.
Qed.
Lemma match_mixed big l t u b z : coherent l -> In t l -> In u l -> an_object t -> t_value u = VNumber b z ->
  (matches big t u = true <-> accident big t u) /\ (matches big u t = true <-> accident big t u).
Proof.
  intros C T U O V. unfold matches. rewrite (soe l t u C T U), (soe l u t C U T).
  assert (py_hash big t = hash_pointer (t_addr t)) as HT by (unfold py_hash, an_object in *; destruct (t_value t); tauto).
  assert (py_hash big u = number_hash big z) as HU by (unfold py_hash; rewrite V; reflexivity).
  unfold accident. rewrite HT, HU, V.
  assert (py_eq (VNumber b z) (t_value t) = py_eq (t_value t) (VNumber b z)) as S by apply eq_sym_all.
  rewrite S.
  assert (py_eq (t_value t) (VNumber b z) = true <-> exists n, t_value t = VLength n /\ b = false /\ z = len_value n) as Q.
  { unfold an_object in O. destruct (t_value t) as [n| | | | |x y|]; try destruct b; unfold py_eq; cbn [eq_method same_object];
    try (split; [discriminate|intros (k & E & F & _); (discriminate E || discriminate F)]); [|destruct O|destruct O].
    split; [intros E; exists n; repeat split; lia|intros (k & [= ->] & _ & ->); lia]. }
  assert (forall P : Prop, (hash_pointer (t_addr t) = number_hash big z /\ py_eq (t_value t) (VNumber b z) = true <-> P) ->
    ((number_hash big z =? hash_pointer (t_addr t)) && py_eq (t_value t) (VNumber b z) = true <-> P) /\
    ((hash_pointer (t_addr t) =? number_hash big z) && py_eq (t_value t) (VNumber b z) = true <-> P)) as R.
  { intros P [PA PB]. split; (split; [intros E; apply andb_prop in E as [E F]; apply Z.eqb_eq in E; apply PA; auto
      |intros E; apply PB in E as [E F]; rewrite F; cbn; rewrite Bool.andb_true_r; apply Z.eqb_eq; auto]). }
  apply R. rewrite Q. split.
  - intros (H & n & N & -> & ->). exists n. auto.
  - intros (n & N & E & H). injection E; intros -> ->. split; [exact H|]. exists n. auto.
Qed.

(** a set finds an object only if it is that object, or by accident *)
Lemma set_object big s t : coherent (t :: s) -> an_object t ->
  set_has big s t = true <-> exists u, In u s /\ (an_object u /\ t_addr u = t_addr t \/ accident big t u).
Proof.
  intros C O. unfold set_has. rewrite existsb_exists.
  assert (forall u, In u s -> (matches big t u = true <-> an_object u /\ t_addr u = t_addr t \/ accident big t u)) as X.
  { intros u IN. destruct (t_value u) as [n| | | | |b z|] eqn:V.
    6:{ destruct (match_mixed big (t :: s) t u b z C ltac:(now left) ltac:(now right) O V) as [M _]. rewrite M.
        unfold an_object. rewrite V. tauto. }
    all: rewrite (match_objects big (t :: s) t u C) by (cbn; auto; unfold an_object; rewrite V; exact I);
      unfold an_object, accident; rewrite V; split; [tauto|]; intros [[_ E]|(l & _ & E & _)]; [exact E|discriminate]. }
  split; intros (u & I & E); exists u; (split; [exact I|]); apply X; auto.
Qed.
Lemma set_number big s t b z : coherent (t :: s) -> t_value t = VNumber b z ->
  set_has big s t = true <-> exists u, In u s /\ ((exists b', t_value u = VNumber b' z) \/ accident big u t).
Proof.
  intros C O. unfold set_has. rewrite existsb_exists.
  assert (forall u, In u s -> (matches big t u = true <-> (exists b', t_value u = VNumber b' z) \/ accident big u t)) as X.
  { intros u IN. destruct (t_value u) as [n| | | | |b' z'|] eqn:V.
    6:{ destruct (Z.eq_dec (t_addr t) (t_addr u)) as [E|N].
        - destruct C as (_ & C & _). pose proof (C t u ltac:(now left) ltac:(now right) E) as W. rewrite O, V in W. injection W as <- <-.
          unfold matches, same_or_equal, is_thing, py_hash. rewrite O, V, E, !Z.eqb_refl. cbn. split; [|reflexivity]. intros _. left. eauto.
        - rewrite (match_numbers big t u _ _ _ _ O V N). unfold accident. rewrite V. split.
          + intros ->. left. eauto.
          + intros [(? & [= _ ->])|(l & E & _)]; [reflexivity|discriminate]. }
    all: destruct (match_mixed big (t :: s) u t b z C ltac:(now right) ltac:(now left) ltac:(unfold an_object; rewrite V; exact I) O) as [_ M];
      rewrite M; (split; [tauto|]); intros [(? & E)|E]; [discriminate|exact E]. }
  split; intros (u & I & E); exists u; (split; [exact I|]); apply X; auto.
Qed.
