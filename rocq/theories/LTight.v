(** A successful parse depends only on the bits it consumes. *)
From Coq Require Import ZifyBool ZifyNat.
From Verif Require Export LTotal.
Ltac Zify.zify_post_hook ::= Z.div_mod_to_equations.

Definition tight {A} (p : P A) : Prop := forall s a s', p s = Ok (a, s') ->
  exists c, bits s = c ++ bits s' /\ pos s' = (pos s + length c)%nat
            /\ forall x, p (St (pos s) (c ++ x)) = Ok (a, St (pos s') x).
Lemma tight_bind {A B} (p : P A) (f : A -> P B) : tight p -> (forall a, tight (f a)) -> tight (bindp p f).
Proof.
  intros Hp Hf s b s' H. apply bindp_inv in H as (a & s1 & H1 & H2).
  destruct (Hp _ _ _ H1) as (c & B1 & P1 & X1). destruct (Hf _ _ _ _ H2) as (d & B2 & P2 & X2).
  exists (c ++ d). rewrite app_length. refine (conj _ (conj _ _)).
  - rewrite B1, B2, app_assoc. reflexivity.
  - lia.
  - intros x. rewrite <- app_assoc. unfold bindp. rewrite X1. apply X2.
Qed.
Lemma tight_ret {A} (a : A) : tight (ret a).
Proof. intros s x s' [= -> ->]. exists []. cbn [app length]. repeat split. lia. Qed.
Lemma tight_lift {A} (r : res A) : tight (lift r).
Proof.
  intros s x s' H. apply lift_inv in H as [E ->]. exists []. cbn [app length]. repeat split; [lia|].
  intros y. unfold lift. rewrite E. reflexivity.
Qed.
Lemma tight_raise {A} e : tight (@raise A e).
Proof. intros s x s' H. discriminate. Qed.
Lemma tight_uint n : tight (read_uint n).
Proof.
  intros s v s' H. unfold read_uint in H. destruct (Nat.ltb (length (bits s)) n) eqn:L; [discriminate|].
  injection H as <- <-. cbn [bits pos]. assert (F : length (firstn n (bits s)) = n) by (rewrite firstn_length; lia).
  exists (firstn n (bits s)). refine (conj _ (conj _ _)).
  - symmetry. apply firstn_skipn.
  - lia.
  - intros x. apply (read_uint_app n _ _ x F).
Qed.
Lemma tight_bool : tight read_bool.
Proof.
  intros s v s' H. unfold read_bool in H. destruct (bits s) as [|b l]; [discriminate|]. injection H as <- <-.
  exists [b]. repeat split.
Qed.
Lemma tight_pad n : tight (read_pad n).
Proof. unfold read_pad. apply tight_bind; [apply tight_uint | intros; apply tight_ret]. Qed.
Lemma tight_int n : tight (read_int n).
Proof. unfold read_int. apply tight_bind; [apply tight_uint | intros; apply tight_ret]. Qed.
Lemma tight_bytes n : tight (read_bytes n).
Proof.
  intros s v s' H. unfold read_bytes in H. destruct (_ <? _) eqn:L; [discriminate|]. injection H as <- <-. cbn [bits pos].
  unfold zlen in *. set (j := 8 * n) in *.
  assert (F : length (firstn (Z.to_nat j) (bits s)) = Z.to_nat j) by (rewrite firstn_length; lia).
  exists (firstn (Z.to_nat j) (bits s)). refine (conj _ (conj _ _)).
  - symmetry. apply firstn_skipn.
  - rewrite F. reflexivity.
  - intros x. unfold read_bytes. cbn [bits pos]. fold j. unfold zlen. rewrite app_length, F.
    replace (_ <? _) with false by lia. rewrite firstn_app_exact, skipn_app_exact by exact F. reflexivity.
Qed.
Lemma tight_bytepos : tight bytepos.
Proof.
  intros s v s' H. unfold bytepos in *. destruct (_ =? 0) eqn:E; [|discriminate]. injection H as <- <-.
  exists []. cbn [app length]. repeat split; [lia|]. intros x. cbn [pos]. rewrite E. reflexivity.
Qed.
#[global] Hint Resolve tight_uint tight_bool tight_pad tight_int tight_bytes tight_bytepos tight_ret tight_lift tight_raise : tight.
Ltac tight1 :=
  cbv beta iota zeta;
  lazymatch goal with
  | |- tight (bindp _ _) => apply tight_bind; [|intros ?]
  | |- tight (if ?b then _ else _) => destruct b
  | |- tight (match ?x with _ => _ end) => destruct x
  | |- tight ?p => first [solve [auto with tight] | let h := head_of p in unfold h]
  end.
Ltac tight_all := repeat tight1.

Lemma tight_ct : tight ct_parse. Proof. tight_all. Qed.
Lemma tight_addr : tight addr_parse. Proof. tight_all. Qed.
Lemma tight_length : tight length_parse. Proof. tight_all. Qed.
Lemma tight_offset : tight offset_parse. Proof. tight_all. Qed.
Lemma tight_action : tight parse_action. Proof. tight_all. Qed.
Lemma tight_actions fuel : forall parsed n, tight (parse_actions fuel parsed n).
Proof.
  induction fuel as [|f IH]; intros parsed n; cbn [parse_actions]; [apply tight_raise|].
  destruct (parsed <? n); [|apply tight_ret].
  apply tight_bind; [apply tight_bytepos | intros a]. apply tight_bind; [apply tight_action | intros b].
  apply tight_bind; [apply tight_bytepos | intros c]. apply tight_bind; [apply IH | intros d]. apply tight_ret.
Qed.
(** the fuel only has to exceed the number of actions *)
Lemma actions_fuel fuel : forall parsed n s l s', parse_actions fuel parsed n s = Ok (l, s') ->
  forall fuel', (length l < fuel')%nat -> parse_actions fuel' parsed n s = Ok (l, s').
Proof.
  induction fuel as [|f IH]; intros parsed n s l s' H fuel' L; cbn [parse_actions] in H; [discriminate|].
  destruct fuel' as [|f']; [lia|]. cbn [parse_actions]. destruct (parsed <? n); [|exact H].
  apply bindp_inv in H as (a & s1 & H1 & H). apply bindp_inv in H as (b & s2 & H2 & H).
  apply bindp_inv in H as (c & s3 & H3 & H). apply bindp_inv in H as (d & s4 & H4 & H). apply ret_inv in H as [-> ->].
  cbn [length] in L. unfold bindp. rewrite H1, H2, H3. rewrite (IH _ _ _ _ _ H4) by lia. reflexivity.
Qed.
Lemma bytepos_inv s v s' : bytepos s = Ok (v, s') -> (pos s mod 8 = 0)%nat /\ s' = s.
Proof. unfold bytepos. destruct (_ =? 0) eqn:E; [|discriminate]. intros [= _ ->]. split; [lia | reflexivity]. Qed.
Lemma actions_length fuel : forall parsed n s l s', parse_actions fuel parsed n s = Ok (l, s') ->
  (pos s + length l <= pos s')%nat.
Proof.
  induction fuel as [|f IH]; intros parsed n s l s' H; cbn [parse_actions] in H; [discriminate|].
  destruct (parsed <? n); [|apply ret_inv in H as [-> ->]; cbn [length]; lia].
  apply bindp_inv in H as (a & s1 & H1 & H). apply bindp_inv in H as (b & s2 & H2 & H).
  apply bindp_inv in H as (c & s3 & H3 & H). apply bindp_inv in H as (d & s4 & H4 & H). apply ret_inv in H as [-> ->].
  apply bytepos_inv in H1 as [M ->]. apply bytepos_inv in H3 as [_ ->].
  pose proof (good_action 0 s M) as G. rewrite H2 in G. destruct G as (x & _ & Hp & [_ Q] & _).
  apply IH in H4. cbn [length]. lia.
Qed.
Lemma tight_alp n : tight (alp_parse n).
Proof.
  intros s a s' H. unfold alp_parse in *. apply bindp_inv in H as (l & s1 & H1 & H2). apply lift_inv in H2 as [H2 ->].
  destruct (n =? 0) eqn:En.
  - apply ret_inv in H1 as [-> ->]. exists []. cbn [app length]. repeat split; [lia|]. intros x.
    unfold bindp, ret, lift. rewrite H2. reflexivity.
  - destruct (tight_actions _ _ _ _ _ _ H1) as (c & B & Ps & X). exists c. refine (conj B (conj Ps _)). intros x.
    pose proof (actions_length _ _ _ _ _ _ H1) as L. cbn [bits]. unfold bindp. rewrite (actions_fuel _ _ _ _ _ _ (X x)).
    + unfold lift. rewrite H2. reflexivity.
    + rewrite app_length. lia.
Qed.
#[global] Hint Resolve tight_alp : tight.
Lemma alp_reads_only_consumed n bs c s' : alp_parse n (stream_of bs) = Ok (c, s') ->
  exists k, (k <= length bs)%nat /\
    forall more, alp_parse n (stream_of (firstn k bs ++ more)) = Ok (c, St (8 * k) (bytes_bits more)).
Proof.
  intros E. destruct (tight_alp n _ _ _ E) as (d & B & Ps & X). cbn [pos stream_of] in *.
  pose proof (good_alp n (stream_of bs) eq_refl) as G. rewrite E in G. destruct G as (d' & B' & _ & [M _] & _).
  assert (d = d') by (apply (app_inv_tail (bits s')); congruence). subst d'. unfold whole in M.
  cbn [bits stream_of] in B.
  assert (Ld : (length d <= 8 * length bs)%nat).
  { rewrite <- bytes_bits_length, B, app_length. lia. }
  exists (length d / 8)%nat. split; [lia|]. intros more. specialize (X (bytes_bits more)).
  assert (Ed : d = bytes_bits (firstn (length d / 8) bs)).
  { rewrite <- (firstn_skipn (length d / 8) bs), bytes_bits_app in B.
    assert (L : length (bytes_bits (firstn (length d / 8) bs)) = length d).
    { rewrite bytes_bits_length, firstn_length. lia. }
    apply (f_equal (firstn (length d))) in B. rewrite <- L in B at 1. rewrite !firstn_app, !Nat.sub_diag, !firstn_all in B.
    cbn [firstn] in B. rewrite !app_nil_r in B. symmetry. exact B. }
  unfold stream_of. rewrite bytes_bits_app, <- Ed, X. do 3 f_equal. lia.
Qed.
