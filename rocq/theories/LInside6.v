(** Several threads in one Parser: without broken frames all calls end. *)
From Coq Require Import ZifyBool ZifyNat.
From Verif Require Import SInside LSerial LInside LInside2 LInside3.
Set Implicit Arguments.

Section Weights.
Variable N : nat.
(** weight of a store to come of [v] bytes *)
Fixpoint gw (v : nat) : nat := match v with O => 8 | S v => 1 + (N + 1) * (gw v + 20) end.
Definition cw (c : nat) : nat := gw (pred c) + 2.
Definition uw (st : list (list Z)) (c : nat) (u : Use) : nat :=
  match u with
  | UExtend _ => 2
  | UTest => if Nat.eqb c 0 then 4 else cw c + 10
  | UStream => cw c + 8
  | UHeader _ => cw c + 6
  | UShift _ _ _ => cw c
  | UInfo None => 2
  | UInfo (Some _) => if Nat.eqb c 0 then 6 else cw c + 12
  | _ => 0
  end.
Definition hw (st : list (list Z)) (c : nat) (u : Use) (b : list Z) : nat :=
  match u with
  | UExtend _ => 1
  | UTest => if Nat.eqb (length b) 0 then 3 else cw c + 9
  | UStream => cw c + 7
  | UHeader _ => cw c + 5
  | UShift _ _ n => gw (length (skipn (Nat.div n 8) b)) + 1
  | UInfo None => 1
  | UInfo (Some _) => if Nat.eqb c 0 then 5 else cw c + 11
  | _ => 0
  end.
Definition pw (st : list (list Z)) (c : nat) (x : Place) : nat :=
  match x with
  | PIdle => 0
  | PLoad u _ => uw st c u
  | PHave u r _ => hw st c u (nth r st [])
  | PStore b _ _ => gw (length b)
  end.
Definition curlen (w : Inside) : nat := length (nth (in_cur w) (in_store w) []).
Definition total (w : Inside) : nat := list_sum (map (pw (in_store w) (curlen w)) (in_places w)).
Definition extending (x : Place) : bool := match x with PLoad (UExtend _) _ | PHave (UExtend _) _ _ => true | _ => false end.
Definition extends (w : Inside) : nat := length (filter extending (in_places w)).

Lemma gw_mono a b : (a <= b)%nat -> (gw a <= gw b)%nat.
Proof. induction 1 as [|b L IH]; [lia|]. cbn [gw]. nia. Qed.
Lemma cw_mono a b : (a <= b)%nat -> (cw a <= cw b)%nat.
Proof. intro L. unfold cw. assert (pred a <= pred b)%nat by lia. pose proof (gw_mono H). lia. Qed.
Lemma gw_pos v : (8 <= gw v)%nat.
Proof. apply (@gw_mono 0 v). lia. Qed.

(** another length of the buffer *)
Lemma pw_zero st c x : (pw st 0 x <= pw st c x)%nat.
Proof.
  pose proof (@cw_mono 0 c ltac:(lia)) as M. assert (10 <= cw 0)%nat by (cbn; lia).
  destruct x as [|u l|u r l|b y l]; cbn [pw]; [lia | | |lia].
  - destruct u as [msg| | |s|t m n|e|e|e k|e|[[[t m] n]|]]; cbn [uw Nat.eqb]; try lia; destruct (Nat.eqb_spec c 0); lia.
  - destruct u as [msg| | |s|t m n|e|e|e k|e|[[[t m] n]|]]; cbn [hw Nat.eqb]; try lia;
      [destruct (Nat.eqb (length (nth r st [])) 0); lia | destruct (Nat.eqb_spec c 0); lia].
Qed.
Lemma pw_more st c v x : (pw st (S v) x <= pw st c x + (gw v + 20))%nat.
Proof.
  assert (E : cw (S v) = (gw v + 2)%nat) by reflexivity. pose proof (gw_pos v).
  destruct x as [|u l|u r l|b y l]; cbn [pw]; [lia | | |lia].
  - destruct u as [msg| | |s|t m n|e|e|e k|e|[[[t m] n]|]]; cbn [uw Nat.eqb]; lia.
  - destruct u as [msg| | |s|t m n|e|e|e k|e|[[[t m] n]|]]; cbn [hw Nat.eqb]; try lia.
    destruct (Nat.eqb (length (nth r st [])) 0); lia.
Qed.
Lemma sum_le A (f g : A -> nat) l : (forall x, In x l -> (f x <= g x)%nat) -> (list_sum (map f l) <= list_sum (map g l))%nat.
Proof.
  induction l as [|x l IH]; intro H; [apply Nat.le_refl|]. cbn [map]. change (list_sum (f x :: map f l)) with (f x + list_sum (map f l))%nat.
  change (list_sum (g x :: map g l)) with (g x + list_sum (map g l))%nat.
  pose proof (H x (or_introl eq_refl)). assert (list_sum (map f l) <= list_sum (map g l))%nat by (apply IH; intros; apply H; right; assumption). lia.
Qed.
Lemma sum_put A (f : A -> nat) : forall l i x y, nth_error l i = Some x ->
  (list_sum (map f (put i y l)) + f x = list_sum (map f l) + f y)%nat.
Proof.
  induction l as [|z l IH]; intros [|i] x y E; cbn [nth_error] in E; try discriminate.
  - injection E as ->. cbn [put map]. change (list_sum (f y :: map f l)) with (f y + list_sum (map f l))%nat.
    change (list_sum (f x :: map f l)) with (f x + list_sum (map f l))%nat. lia.
  - cbn [put map]. pose proof (IH _ _ y E).
    change (list_sum (f z :: map f l)) with (f z + list_sum (map f l))%nat.
    change (list_sum (f z :: map f (put i y l))) with (f z + list_sum (map f (put i y l)))%nat. lia.
Qed.
Lemma sum_plus A (f : A -> nat) k l : list_sum (map (fun x => f x + k)%nat l) = (list_sum (map f l) + length l * k)%nat.
Proof.
  induction l as [|x l IH]; [reflexivity|]. cbn [map length].
  change (list_sum ((f x + k)%nat :: map (fun x => f x + k)%nat l)) with (f x + k + list_sum (map (fun x => f x + k)%nat l))%nat.
  change (list_sum (f x :: map f l)) with (f x + list_sum (map f l))%nat. lia.
Qed.
Lemma filter_put A (f : A -> bool) : forall l i x y, nth_error l i = Some x ->
  (length (filter f (put i y l)) + (if f x then 1 else 0) = length (filter f l) + (if f y then 1 else 0))%nat.
Proof.
  induction l as [|z l IH]; intros [|i] x y E; cbn [nth_error] in E; try discriminate.
  - injection E as ->. cbn [put filter]. destruct (f x), (f y); cbn [length]; lia.
  - cbn [put filter]. pose proof (IH _ _ y E). destruct (f z); cbn [length]; lia.
Qed.

(** only the place of one thread changes *)
Lemma total_place w i x y : nth_error (in_places w) i = Some x ->
  (total (put_place i y w) + pw (in_store w) (curlen w) x = total w + pw (in_store w) (curlen w) y)%nat.
Proof. destruct w as [st c sk u d e ps rs]. cbn [in_places]. intro E. apply sum_put, E. Qed.
Lemma extends_place w i x y : nth_error (in_places w) i = Some x ->
  (extends (put_place i y w) + (if extending x then 1 else 0) = extends w + (if extending y then 1 else 0))%nat.
Proof. destruct w as [st c sk u d e ps rs]. cbn [in_places]. intro E. apply filter_put, E. Qed.

Definition below (w' w : Inside) : Prop := (extends w' < extends w \/ (extends w' = extends w /\ total w' < total w))%nat.
Lemma below_place w i x y : nth_error (in_places w) i = Some x ->
  (extending y = true -> extending x = true) -> (pw (in_store w) (curlen w) y < pw (in_store w) (curlen w) x)%nat ->
  below (put_place i y w) w.
Proof.
  intros E X L. pose proof (total_place _ _ y E) as T. pose proof (extends_place _ _ y E) as Q. unfold below.
  destruct (extending x), (extending y); try lia.
Qed.
Lemma below_count w v k : below (count k v) w <-> below v w.
Proof. destruct v as [st c sk u d e ps rs]. reflexivity. Qed.
Lemma below_count_place w i x k y : nth_error (in_places w) i = Some x ->
  (extending y = true -> extending x = true) -> (pw (in_store w) (curlen w) y < pw (in_store w) (curlen w) x)%nat ->
  below (put_place i y (count k w)) w.
Proof.
  intros E X L. assert (H : put_place i y (count k w) = count k (put_place i y w)) by (destruct w; reflexivity).
  rewrite H, below_count. eapply below_place; eauto.
Qed.
Lemma below_finish w i x r : nth_error (in_places w) i = Some x -> (0 < pw (in_store w) (curlen w) x)%nat -> below (finish i r w) w.
Proof.
  intros E L. pose proof (@below_place w i x PIdle E) as P. destruct w as [st c sk u d e ps rs].
  apply P; [discriminate | exact L].
Qed.
Lemma below_finish_count w i x r k : nth_error (in_places w) i = Some x -> (0 < pw (in_store w) (curlen w) x)%nat -> below (finish i r (count k w)) w.
Proof.
  intros E L. assert (H : finish i r (count k w) = count k (finish i r w)) by (destruct w; reflexivity).
  rewrite H, below_count. eapply below_finish; eauto.
Qed.

(** a new bytearray *)
Lemma below_store w i b t m n l : length (in_places w) = N -> nth_error (in_places w) i = Some (PStore b (NMessage t m n) l) ->
  Forall (fun x => match x with PHave _ r _ => (r < length (in_store w))%nat | _ => True end) (in_places w) ->
  below (put_place i (PLoad (UInfo (Some (t, m, n))) l) (new_bytes b w)) w.
Proof.
  intros HN E F. set (y := PLoad (UInfo (Some (t, m, n))) l).
  destruct w as [st c sk u d e ps rs]. unfold below, extends, total, curlen, new_bytes, put_place in *.
  cbn [in_places in_store in_cur] in *. right. split.
  - pose proof (filter_put extending _ _ y E). cbn in H. lia.
  - rewrite (app_nth2 st [b] []) by lia. rewrite Nat.sub_diag. cbn [nth]. set (c0 := length (nth c st [])).
    assert (S1 : list_sum (map (pw (st ++ [b]) (length b)) (put i y ps)) = list_sum (map (pw st (length b)) (put i y ps))).
    { assert (Q : forall x, In x (put i y ps) -> pw (st ++ [b]) (length b) x = pw st (length b) x).
      { assert (F' : Forall (fun x => match x with PHave _ r _ => (r < length st)%nat | _ => True end) (put i y ps)) by (apply Forall_put; [exact F | exact Logic.I]).
        intros x X. rewrite Forall_forall in F'. specialize (F' x X). destruct x; cbn [pw]; try reflexivity. rewrite app_nth1 by exact F'. reflexivity. }
      f_equal. apply map_ext_in. exact Q. }
    rewrite S1. pose proof (sum_put (pw st c0) _ _ y E) as T. cbn [pw] in T.
    pose proof (sum_put (pw st (length b)) _ _ y E) as T'. cbn [pw] in T'.
    destruct b as [|b0 b1].
    + cbn [length] in *. assert (H : (list_sum (map (pw st 0) ps) <= list_sum (map (pw st c0) ps))%nat) by (apply sum_le; intros; apply pw_zero).
      unfold y in T' at 2. cbn [pw uw Nat.eqb gw] in T'. lia.
    + set (v := length b1) in *. change (length (b0 :: b1)) with (S v) in *.
      (* all the others may weigh more *)
      set (k := (gw v + 20)%nat).
      set (p0 := put i PIdle ps).
      pose proof (sum_put (pw st c0) _ _ PIdle E) as A1. pose proof (sum_put (pw st (S v)) _ _ PIdle E) as A2. fold p0 in A1, A2.
      assert (H : (list_sum (map (pw st (S v)) p0) <= list_sum (map (pw st c0) p0) + length ps * k - k)%nat).
      { assert (Hp : (i < length ps)%nat) by (apply nth_error_Some; congruence).
        unfold p0. clear -Hp. revert i Hp. induction ps as [|z ps IH]; intros i Hp; cbn [length] in *; [lia|].
        destruct i as [|i].
        - cbn [put map]. change (list_sum (pw st (S v) PIdle :: map (pw st (S v)) ps)) with (list_sum (map (pw st (S v)) ps)).
          change (list_sum (pw st c0 PIdle :: map (pw st c0) ps)) with (list_sum (map (pw st c0) ps)).
          assert (Q : (list_sum (map (pw st (S v)) ps) <= list_sum (map (fun x => pw st c0 x + k)%nat ps))%nat) by (apply sum_le; intros; apply pw_more).
          rewrite sum_plus in Q. nia.
        - cbn [put map].
          change (list_sum (pw st (S v) z :: map (pw st (S v)) (put i PIdle ps))) with (pw st (S v) z + list_sum (map (pw st (S v)) (put i PIdle ps)))%nat.
          change (list_sum (pw st c0 z :: map (pw st c0) (put i PIdle ps))) with (pw st c0 z + list_sum (map (pw st c0) (put i PIdle ps)))%nat.
          pose proof (IH i ltac:(lia)) as Q. pose proof (@pw_more st c0 v z) as M. fold k in M.
          assert (k <= length ps * k)%nat by nia. nia. }
      assert (Y : (pw st (S v) y <= k)%nat).
      { unfold y. cbn [pw uw Nat.eqb]. unfold k, cw. cbn [pred]. lia. }
      cbn [pw] in A1, A2. rewrite HN in H.
      assert (gw (S v) = (1 + (N + 1) * k)%nat) by reflexivity.
      assert (0 < N)%nat by (assert (i < length ps)%nat by (apply nth_error_Some; congruence); lia).
      assert (k <= N * k)%nat by nia. nia.
Qed.
End Weights.

Section Ends.
Variables (lib : bool) (p : SParser) (n : nat).
Hypothesis B : byte_in p.

Definition not_skipping (w : Inside) : Prop := Forall (fun x => skipping x = false) (in_places w).
Lemma handle_below w i x e l v : nth_error (in_places w) i = Some x -> (2 < pw n (in_store w) (curlen w) x)%nat ->
  (v = w \/ exists k, v = count k w) -> not_skipping (handle lib i e l v) -> extending x = false -> below n (handle lib i e l v) w.
Proof.
  intros E L V S X. assert (Li : (i < length (in_places w))%nat) by (apply nth_error_Some; congruence).
  unfold handle in *. destruct (is_read_error lib e).
  - destruct V as [->|[k ->]]; [eapply below_place | eapply below_count_place]; eauto; try discriminate; cbn [pw uw]; lia.
  - destruct (no_args e).
    + destruct V as [->|[k ->]]; [eapply below_finish | eapply below_finish_count]; eauto; lia.
    + exfalso. unfold not_skipping in S. rewrite Forall_forall in S.
      assert (Q : nth_error (in_places (put_place i (PLoad (UPop e) l) v)) i = Some (PLoad (UPop e) l)).
      { destruct V as [->|[k ->]]; destruct w; cbn; apply put_get; exact Li. }
      specialize (S _ (nth_error_In _ _ Q)). discriminate.
Qed.
Lemma step_below ls w i w' : Forall is_byte (given ls) -> inside_run lib (inside_of p n) ls = Some w ->
  not_skipping w -> inside_step lib w (IGo i) = Some w' -> not_skipping w' -> below n w' w.
Proof.
  intros F R S E S'. pose proof (@kept_run lib p n B ls w F R) as K.
  assert (HN : length (in_places w) = n) by (rewrite (k_number K); cbn; apply repeat_length).
  cbn [inside_step] in E. destruct (nth_error (in_places w) i) as [x|] eqn:P; [|discriminate].
  assert (Li : (i < length (in_places w))%nat) by (apply nth_error_Some; congruence).
  pose proof (k_places K) as Q. pose proof (proj1 (Forall_forall _ _) Q x (nth_error_In _ _ P)) as Qx.
  pose proof (proj1 (Forall_forall _ _) S x (nth_error_In _ _ P)) as Sx. cbn beta in Sx.
  assert (Cur : nth (in_cur w) (in_store w) [] = nth (in_cur w) (in_store w) []) by reflexivity.
  pose proof (gw_pos n) as GP.
  assert (CP : (10 <= cw n (curlen w))%nat) by (unfold cw; pose proof (GP (pred (curlen w))); lia).
  destruct x as [|u l|u r l|b y l]; [discriminate | | | ].
  - injection E as <-. eapply below_place; [exact P | destruct u; cbn; auto|].
    destruct u as [msg| | |s|t m k|e|e|e k|e|[[[t m] k]|]]; try discriminate Sx; cbn [pw uw hw]; fold (curlen w); try lia.
    + destruct (Nat.eqb (curlen w) 0); lia.
    + cbn in Qx. destruct Qx as [[_ K8] _]. rewrite skipn_length. fold (curlen w). unfold cw.
      assert (1 <= Nat.div k 8)%nat by (apply Nat.div_le_lower_bound; lia).
      pose proof (@gw_mono n (curlen w - Nat.div k 8) (pred (curlen w)) ltac:(lia)). lia.
    + destruct (Nat.eqb (curlen w) 0); lia.
  - destruct (nth_error (in_store w) r) as [b|] eqn:Nr; [|discriminate]. injection E as <-.
    assert (Nb : nth r (in_store w) [] = b) by (apply nth_error_nth, Nr).
    destruct u as [msg| | |s|t m k|e|e|e k|e|[[[t m] k]|]]; try discriminate Sx; cbn [use] in *.
    + left. assert (P' : nth_error (in_places (put_bytes r (b ++ msg) w)) i = Some (PHave (UExtend msg) r l)) by (destruct w; exact P).
      pose proof (@extends_place n (put_bytes r (b ++ msg) w) i _ (PLoad UTest l) P') as X. cbn [extending] in X.
      assert (extends (put_bytes r (b ++ msg) w) = extends w) by (destruct w; reflexivity). lia.
    + eapply below_place; [exact P | destruct b; discriminate|]. cbn [pw hw]. rewrite Nb. destruct b; cbn [uw length Nat.eqb]; lia.
    + eapply below_place; [exact P | discriminate|]. cbn [pw hw uw]. lia.
    + destruct (header_fields (zlen b) (stream_of s)) as [[[[[[[counter t] len] c1] c2] payload] s']|e].
      * destruct (calculate_crc payload) as [h o].
        match goal with |- context[match ?x with Ok _ => _ | Err _ => _ end] => destruct x as [[m k]|e] end.
        -- eapply below_count_place; [exact P | discriminate|]. cbn [pw hw uw]. lia.
        -- eapply handle_below; [exact P | cbn [pw hw]; lia | right; eauto | exact S' | reflexivity].
      * eapply handle_below; [exact P | cbn [pw hw]; lia | left; reflexivity | exact S' | reflexivity].
    + eapply below_place; [exact P | discriminate|]. cbn [pw hw]. rewrite Nb. lia.
    + eapply below_place; [exact P | discriminate|]. cbn [pw hw uw]. destruct (Nat.eqb (curlen w) 0); lia.
    + eapply below_finish; [exact P|]. cbn [pw hw]. lia.
  - destruct y as [t m k|e]; [|discriminate Sx]. injection E as <-. eapply below_store; [exact HN | exact P|].
    revert Q. apply Forall_impl. intros [|u' l'|u' r' l'|b' y' l']; cbn; tauto.
Qed.

Lemma finite_bound (Q : nat -> nat -> Prop) : (forall i a b, (a <= b)%nat -> Q i a -> Q i b) ->
  forall m, (forall i, (i < m)%nat -> exists K, Q i K) -> exists K, forall i, (i < m)%nat -> Q i K.
Proof.
  intros Mono. induction m as [|m IH]; intro H; [exists 0%nat; lia|].
  destruct IH as [K1 H1]; [intros; apply H; lia|]. destruct (H m ltac:(lia)) as [K2 H2]. exists (K1 + K2)%nat.
  intros i Li. destruct (Nat.eq_dec i m) as [->|]; [eapply Mono; [|exact H2]; lia | eapply Mono; [|apply H1; lia]; lia].
Qed.
Definition bounded (w : Inside) (K : nat) : Prop :=
  forall is v, inside_run lib w (map IGo is) = Some v -> calm lib w is -> (length is <= K)%nat.
Lemma calm_tail w x is w1 : calm lib w (x :: is) -> inside_step lib w (IGo x) = Some w1 -> calm lib w1 is.
Proof.
  intros C S a b v -> R. apply (C (x :: a) b v eq_refl). cbn [map inside_run]. rewrite S. exact R.
Qed.
Lemma ends_from : forall e f ls w, Forall is_byte (given ls) -> inside_run lib (inside_of p n) ls = Some w ->
  (extends w < e \/ (extends w = e /\ total n w <= f))%nat -> exists K, bounded w K.
Proof.
  induction e as [e IHe] using (well_founded_induction lt_wf).
  induction f as [f IHf] using (well_founded_induction lt_wf).
  intros ls w F R M.
  destruct M as [M|[M1 M2]]; [apply (IHe (extends w) M (total n w) ls w F R); right; lia|].
  assert (T : length (in_places w) = n) by (rewrite (k_number (@kept_run lib p n B ls w F R)); cbn; apply repeat_length).
  assert (H : exists K, forall i, (i < n)%nat -> forall w1, inside_step lib w (IGo i) = Some w1 -> not_skipping w -> not_skipping w1 -> bounded w1 K).
  { apply finite_bound with (Q := fun i K => forall w1, inside_step lib w (IGo i) = Some w1 -> not_skipping w -> not_skipping w1 -> bounded w1 K).
    - intros i a b L H w1 S N0 N1 is v Rv Cv. specialize (H w1 S N0 N1 is v Rv Cv). lia.
    - intros i Li. destruct (inside_step lib w (IGo i)) as [w1|] eqn:S; [|exists 0%nat; discriminate].
      assert (D : not_skipping w /\ not_skipping w1 \/ ~ (not_skipping w /\ not_skipping w1)).
      { assert (Dec : forall v, not_skipping v \/ ~ not_skipping v).
        { intro v. unfold not_skipping. destruct (Forall_dec (fun x => skipping x = false) (fun x => Bool.bool_dec (skipping x) false) (in_places v)); auto. }
        destruct (Dec w), (Dec w1); tauto. }
      destruct D as [[D0 D1]|D].
      + assert (F1 : Forall is_byte (given (ls ++ [IGo i]))) by (rewrite given_app; apply Forall_app; split; [exact F | constructor]).
        assert (R1 : inside_run lib (inside_of p n) (ls ++ [IGo i]) = Some w1) by (rewrite run_app, R; cbn [inside_run]; rewrite S; reflexivity).
        pose proof (step_below _ _ F R D0 S D1) as L.
        assert (X : exists K, bounded w1 K).
        { destruct L as [L|[L1 L2]].
          - apply (IHe (extends w1) ltac:(lia) (total n w1) _ w1 F1 R1). right. lia.
          - apply (IHf (total n w1) ltac:(lia) _ w1 F1 R1). right. lia. }
        destruct X as [K X]. exists K. intros w2 E _ _. injection E as <-. exact X.
      + exists 0%nat. intros w2 E D0 D1. injection E as <-. exfalso. apply D. split; assumption. }
  destruct H as [K H]. exists (S K). intros [|x is] v Rv Cv; [cbn; lia|].
  cbn [map inside_run] in Rv. destruct (inside_step lib w (IGo x)) as [w1|] eqn:S; [|discriminate].
  assert (Lx : (x < n)%nat).
  { cbn [inside_step] in S. destruct (nth_error (in_places w) x) as [y|] eqn:Y; [|discriminate]. rewrite <- T. apply nth_error_Some. congruence. }
  assert (D0 : not_skipping w) by (apply (Cv [] (x :: is) w eq_refl eq_refl)).
  assert (D1 : not_skipping w1).
  { apply (Cv [x] is w1 eq_refl). cbn [map inside_run]. rewrite S. reflexivity. }
  pose proof (H x Lx w1 S D0 D1) as Bd. cbn [length]. apply le_n_S. 
  eapply Bd; [exact Rv | eapply calm_tail; eauto].
Qed.
End Ends.
Lemma inside_ends : forall lib p n ls w, byte_in p -> Forall is_byte (given ls) -> inside_run lib (inside_of p n) ls = Some w ->
  exists K, forall is v, inside_run lib w (map IGo is) = Some v -> calm lib w is -> (length is <= K)%nat.
Proof. intros lib p n ls w B F R. apply (@ends_from lib p n B (extends w) (total n w) ls w F R). right. lia. Qed.

(** a check of one run *)
Fixpoint calmb (lib : bool) (w : Inside) (is : list nat) : bool :=
  forallb (fun x => negb (skipping x)) (in_places w) &&
  match is with
  | [] => true
  | i :: r => match inside_step lib w (IGo i) with Some v => calmb lib v r | None => true end
  end.
Lemma calmb_ok lib : forall is w, calmb lib w is = true -> calm lib w is.
Proof.
  assert (H0 : forall w : Inside, forallb (fun x => negb (skipping x)) (in_places w) = true -> Forall (fun x => skipping x = false) (in_places w)).
  { intros w H. rewrite forallb_forall in H. apply Forall_forall. intros x X. specialize (H x X). destruct (skipping x); [discriminate | reflexivity]. }
  induction is as [|i r IH]; intros w H a b v E R; cbn [calmb] in H; apply andb_true_iff in H as [H1 H2].
  - destruct a; [|discriminate]. cbn in R. injection R as <-. auto.
  - destruct a as [|x a]; [cbn in R; injection R as <-; auto|]. cbn [app] in E. injection E as <- ->.
    cbn [map inside_run] in R. destruct (inside_step lib w (IGo i)) as [u|]; [|discriminate]. eapply IH; eauto.
Qed.
