(** Compressed time: rounding. *)
From Coq Require Import ZifyBool ZifyNat.
From Verif Require Export LTypes.
Ltac Zify.zify_post_hook ::= Z.div_mod_to_equations.

Ltac pow4 :=
  change (4 ^ 0) with 1 in *; change (4 ^ 1) with 4 in *; change (4 ^ 2) with 16 in *;
  change (4 ^ 3) with 64 in *; change (4 ^ 4) with 256 in *; change (4 ^ 5) with 1024 in *;
  change (4 ^ 6) with 4096 in *; change (4 ^ 7) with 16384 in *.

Lemma exp_cases e : 0 <= e <= 7 ->
  e = 0 \/ e = 1 \/ e = 2 \/ e = 3 \/ e = 4 \/ e = 5 \/ e = 6 \/ e = 7.
Proof. lia. Qed.


Lemma ct_compress_step f i v ceil : 0 <= v -> v <= 31 * 4 ^ i -> 0 <= i <= 7 ->
  ct_compress_from (S f) i v ceil
  = Ok (Some (mkCT i (if ceil && negb (v mod 4 ^ i =? 0) then v / 4 ^ i + 1 else v / 4 ^ i))).
Proof.
  intros Hv Hb Hi. cbn [ct_compress_from].
  assert (Hp : 0 < 4 ^ i) by (apply Z.pow_pos_nonneg; lia).
  replace (v <=? 4 ^ i * 31) with true by lia.
  rewrite Z.quot_div_nonneg by lia.
  set (m := if _ && _ then _ else _).
  assert (Hm : 0 <= m <= 31).
  { unfold m. destruct (exp_cases i Hi) as [E|[E|[E|[E|[E|[E|[E|E]]]]]]]; subst i; pow4;
      destruct ceil; cbn [andb]; try lia;
      match goal with |- context [?a =? 0] => destruct (Z.eqb_spec a 0) end; cbn [negb]; lia. }
  unfold mk_ct, validated. replace (in_range 0 7 i && in_range 0 31 m) with true by ranges.
  reflexivity.
Qed.
Lemma ct_compress_next f i v ceil : 31 * 4 ^ i < v ->
  ct_compress_from (S f) i v ceil = ct_compress_from f (i + 1) v ceil.
Proof. intros H. cbn [ct_compress_from]. replace (v <=? 4 ^ i * 31) with false by lia. reflexivity. Qed.

Lemma ct_compress_spec v ceil : 0 <= v <= ct_max -> exists i, ct_fits v i /\
  ct_compress v ceil
  = Ok (Some (mkCT i (if ceil && negb (v mod 4 ^ i =? 0) then v / 4 ^ i + 1 else v / 4 ^ i))).
Proof.
  unfold ct_max, ct_compress. intros [H0 Hmax].
  assert (Step : forall f i, (7 - Z.of_nat f = i)%Z -> 0 <= i <= 7 -> (i = 0 \/ 31 * 4 ^ (i - 1) < v) ->
    exists j, ct_fits v j /\ ct_compress_from (S f) i v ceil
      = Ok (Some (mkCT j (if ceil && negb (v mod 4 ^ j =? 0) then v / 4 ^ j + 1 else v / 4 ^ j)))).
  { induction f as [|f IH]; intros i Hf Hi Hlow.
    - assert (i = 7) by lia. subst i. exists 7. split; [unfold ct_fits; pow4; lia|].
      apply ct_compress_step; pow4; lia.
    - destruct (Z.le_gt_cases v (31 * 4 ^ i)) as [C|C].
      + exists i. split; [unfold ct_fits; lia|]. apply ct_compress_step; lia.
      + rewrite ct_compress_next by lia. apply IH; [lia | lia |].
        right. replace (i + 1 - 1) with i by lia. exact C. }
  apply (Step 7%nat 0); lia.
Qed.
Lemma ct_compress_above v ceil : ct_max < v -> ct_compress v ceil = Ok None.
Proof.
  intros H. unfold ct_max, ct_compress in *.
  do 8 (rewrite ct_compress_next by (cbn; lia)). reflexivity.
Qed.
Lemma ct_compress_neg v ceil : v < 0 -> ct_compress v ceil = Err ValueError.
Proof.
  intros H. unfold ct_compress. cbn [ct_compress_from].
  replace (v <=? 4 ^ 0 * 31) with true by (pow4; lia). pow4.
  rewrite Z.quot_1_r, Z.mod_1_r. cbn [Z.eqb negb]. rewrite andb_false_r.
  unfold mk_ct, validated. replace (_ && _) with false by ranges. reflexivity.
Qed.

Lemma pow4_mul i e : 0 <= i <= e -> 4 ^ e = 4 ^ (e - i) * 4 ^ i.
Proof. intros H. rewrite <- Z.pow_add_r by lia. f_equal. lia. Qed.

(** a representable value not below [v] is a multiple of the chosen unit *)
Lemma ct_fits_multiple v i c : ct_fits v i -> ct_wf c -> v <= ct_value c ->
  exists k, ct_value c = k * 4 ^ i.
Proof.
  intros (Hi & Hv & Hlow) (He & Hm) Hc. unfold ct_value in *.
  destruct (Z.le_gt_cases i (ct_exp c)) as [C|C].
  - exists (ct_mant c * 4 ^ (ct_exp c - i)). rewrite (pow4_mul i (ct_exp c)) by lia. ring.
  - exfalso. destruct Hlow as [->|Hlow]; [lia|].
    assert (4 ^ ct_exp c <= 4 ^ (i - 1)) by (apply Z.pow_le_mono_r; lia).
    nia.
Qed.

Lemma ct_ceil_optimal v : 0 <= v <= ct_max -> exists c, ct_compress v true = Ok (Some c) /\ ct_wf c
  /\ ct_fits v (ct_exp c) /\ v <= ct_value c /\ (forall d, ct_wf d -> v <= ct_value d -> ct_value c <= ct_value d).
Proof.
  intros H. destruct (ct_compress_spec v true H) as (i & Hf & E). cbn [andb] in E.
  set (m := if negb (v mod 4 ^ i =? 0) then v / 4 ^ i + 1 else v / 4 ^ i) in *.
  exists (mkCT i m). split; [exact E|].
  assert (Hi : 0 <= i <= 7) by apply Hf.
  assert (Hp : 0 < 4 ^ i) by (apply Z.pow_pos_nonneg; lia).
  assert (Hm : 0 <= m <= 31 /\ v <= m * 4 ^ i < v + 4 ^ i).
  { destruct Hf as (_ & Hv & _). unfold m.
    pose proof (Z.div_mod v (4 ^ i) ltac:(lia)) as D. pose proof (Z.mod_pos_bound v (4 ^ i) Hp) as M.
    set (q := v / 4 ^ i) in *. set (r := v mod 4 ^ i) in *. set (k := 4 ^ i) in *.
    clearbody q r k. clear - D M Hp Hv H.
    destruct (Z.eqb_spec r 0) as [R|R]; cbn [negb]; nia. }
  change (ct_value (mkCT i m)) with (m * 4 ^ i). cbn [ct_exp].
  split; [unfold ct_wf; cbn [ct_exp ct_mant]; lia|]. split; [exact Hf|]. split; [lia|].
  intros d Wd Hd. destruct (ct_fits_multiple v i d Hf Wd Hd) as [k Hk]. rewrite Hk in *.
  apply Z.mul_le_mono_nonneg_r; [lia|].
  assert (H2 : m * 4 ^ i < (k + 1) * 4 ^ i) by lia.
  apply Z.mul_lt_mono_pos_r in H2; lia.
Qed.
Lemma ct_ceil_exact c : ct_wf c -> exists d, ct_compress (ct_value c) true = Ok (Some d) /\ ct_value d = ct_value c.
Proof.
  intros W. assert (R : 0 <= ct_value c <= ct_max).
  { destruct W as [He Hm]. unfold ct_value, ct_max. destruct (exp_cases _ He) as [E|[E|[E|[E|[E|[E|[E|E]]]]]]];
      rewrite E; pow4; lia. }
  destruct (ct_ceil_optimal _ R) as (d & E & Wd & _ & L & O). exists d. split; [exact E|].
  specialize (O c W). lia.
Qed.
Lemma ct_ceil_monotone v w c d : 0 <= v <= w -> ct_compress v true = Ok (Some c) ->
  ct_compress w true = Ok (Some d) -> ct_value c <= ct_value d.
Proof.
  intros H Ev Ew. destruct (Z.le_gt_cases w ct_max) as [C|C].
  - destruct (ct_ceil_optimal v) as (c' & E & _ & _ & _ & O); [lia|].
    destruct (ct_ceil_optimal w) as (d' & E' & W' & _ & L' & _); [lia|].
    assert (c' = c) by congruence. assert (d' = d) by congruence. subst. apply O; [exact W' | lia].
  - rewrite ct_compress_above in Ew by exact C. discriminate.
Qed.

Lemma ct_floor_spec v : 0 <= v <= ct_max -> exists c, ct_compress v false = Ok (Some c) /\ ct_wf c
  /\ ct_fits v (ct_exp c) /\ ct_mant c = v / 4 ^ ct_exp c /\ ct_value c <= v < ct_value c + 4 ^ ct_exp c.
Proof.
  intros H. destruct (ct_compress_spec v false H) as (i & Hf & E). eexists. split; [exact E|].
  cbn [andb] in *. assert (Hi : 0 <= i <= 7) by apply Hf.
  assert (Hp : 0 < 4 ^ i) by (apply Z.pow_pos_nonneg; lia).
  unfold ct_wf, ct_value. cbn [ct_exp ct_mant]. destruct Hf as (? & Hv & Hlow).
  pose proof (Z.div_mod v (4 ^ i)). pose proof (Z.mod_pos_bound v (4 ^ i)).
  assert (0 <= v / 4 ^ i <= 31) by nia.
  split; [lia|]. split; [repeat split; assumption || lia|]. split; [reflexivity|]. nia.
Qed.
Lemma ct_floor_optimal_iff v c : 0 <= v <= ct_max -> ct_compress v false = Ok (Some c) ->
  (forall d, ct_wf d -> ct_value d <= v -> ct_value d <= ct_value c) <-> ~ ct_floor_gap v.
Proof.
  intros H E. destruct (ct_floor_spec v H) as (c' & E' & Wc & Hf & Hm & Hb).
  assert (c' = c) by congruence. subst c'. clear E E'.
  set (i := ct_exp c) in *. assert (Hi : 0 <= i <= 7) by apply Hf.
  assert (Hp : 0 < 4 ^ i) by (apply Z.pow_pos_nonneg; lia).
  assert (Vc : ct_value c = v / 4 ^ i * 4 ^ i) by (unfold ct_value; rewrite Hm; reflexivity).
  split.
  - intros O (j & Hj & Hg). destruct Hf as (_ & Hv & Hlow).
    assert (Hij : i = j + 1).
    { destruct (Z.lt_trichotomy i (j + 1)) as [L|[L|L]]; [|exact L|].
      - assert (4 ^ i <= 4 ^ j) by (apply Z.pow_le_mono_r; lia). lia.
      - destruct Hlow as [L0|Hlow]; [lia|].
        assert (4 ^ (j + 1) <= 4 ^ (i - 1)) by (apply Z.pow_le_mono_r; lia).
        rewrite Z.pow_add_r in * by lia. change (4 ^ 1) with 4 in *. lia. }
    specialize (O (mkCT j 31)). unfold ct_wf, ct_value at 1 2 in O. cbn [ct_exp ct_mant] in O.
    assert (ct_value c < 31 * 4 ^ j); [|lia].
    rewrite Vc, Hij, Z.pow_add_r by lia. change (4 ^ 1) with 4.
    assert (0 < 4 ^ j) by (apply Z.pow_pos_nonneg; lia).
    assert (v / (4 ^ j * 4) <= 7); [|nia].
    apply Z.lt_succ_r. apply Z.div_lt_upper_bound; lia.
  - intros G d Wd Hd. destruct Wd as [He Hmd]. unfold ct_value in Hd at 1. 
    destruct (Z.le_gt_cases i (ct_exp d)) as [C|C].
    + unfold ct_value at 1. rewrite (pow4_mul i (ct_exp d)) in * by lia.
      set (k := ct_mant d * 4 ^ (ct_exp d - i)).
      assert (ct_mant d * (4 ^ (ct_exp d - i) * 4 ^ i) = k * 4 ^ i) as -> by (unfold k; ring).
      replace (ct_mant d * (4 ^ (ct_exp d - i) * 4 ^ i)) with (k * 4 ^ i) in Hd by (unfold k; ring).
      rewrite Vc. apply Z.mul_le_mono_nonneg_r; [lia|]. apply Z.div_le_lower_bound; lia.
    + destruct Hf as (_ & Hv & [L0|Hlow]); [lia|].
      assert (V31 : ct_value d <= 31 * 4 ^ (i - 1)).
      { unfold ct_value. assert (4 ^ ct_exp d <= 4 ^ (i - 1)) by (apply Z.pow_le_mono_r; lia). nia. }
      assert (32 * 4 ^ (i - 1) <= v).
      { apply Z.nlt_ge. intros L. apply G. exists (i - 1). lia. }
      assert (E4 : 4 ^ i = 4 * 4 ^ (i - 1)) by (rewrite <- Z.pow_succ_r by lia; f_equal; lia).
      assert (8 <= v / 4 ^ i) by (apply Z.div_le_lower_bound; lia).
      nia.
Qed.
