(** Lemmas about the parser and serializer primitives. *)
From Coq Require Import ZifyBool ZifyNat.
From Verif Require Export LBits SCodec.
Ltac Zify.zify_post_hook ::= Z.div_mod_to_equations.

Lemma St_eq p p' b : p = p' -> St p b = St p' b.
Proof. intros ->. reflexivity. Qed.

(** ** Serialization *)
Lemma emits_app a b la lb : emits a la -> emits b lb -> emits (a +++ b) (la ++ lb).
Proof.
  intros (x & -> & Hx & <-) (y & -> & Hy & <-). exists (x ++ y). cbn [rapp rbind].
  repeat split; [apply Forall_app; split; assumption | apply bytes_bits_app].
Qed.
Lemma emits_nil : emits (Ok []) [].
Proof. exists []. repeat split; constructor. Qed.
Lemma yield1_ok z : 0 <= z <= 255 -> yield1 z = Ok [z].
Proof. intros H. unfold yield1. replace ((0 <=? z) && (z <=? 255)) with true by lia. reflexivity. Qed.
Lemma yield1_err z : ~ (0 <= z <= 255) -> yield1 z = Err ValueError.
Proof. intros H. unfold yield1. replace ((0 <=? z) && (z <=? 255)) with false by lia. reflexivity. Qed.
Lemma emits_yield1 z : 0 <= z <= 255 -> emits (yield1 z) (Zbits 8 z).
Proof.
  intros H. exists [z]. rewrite yield1_ok by assumption. split; [|split].
  - reflexivity.
  - constructor; [exact H | constructor].
  - unfold bytes_bits. cbn [flat_map]. apply app_nil_r.
Qed.
Lemma emits_yield1' z l : 0 <= z <= 255 -> Zbits 8 z = l -> emits (yield1 z) l.
Proof. intros H <-. apply emits_yield1. exact H. Qed.
Lemma yields_ok l : Forall is_byte l -> yields l = Ok l.
Proof.
  unfold yields. induction 1 as [|b l Hb Hl IH]; [reflexivity|].
  cbn [map rconcat]. rewrite IH, yield1_ok by exact Hb. reflexivity.
Qed.
Lemma emits_yields l : Forall is_byte l -> emits (yields l) (bytes_bits l).
Proof. intros H. exists l. rewrite yields_ok by assumption. auto. Qed.
Lemma pack_be_ok n v : 0 <= v < 2 ^ (8 * Z.of_nat n) -> pack_be n v = Ok (be_bytes n v).
Proof. intros H. unfold pack_be. replace (_ && _) with true by lia. reflexivity. Qed.
Lemma emits_pack_be n v : 0 <= v < 2 ^ (8 * Z.of_nat n) -> emits (pack_be n v) (Zbits (8 * n) v).
Proof.
  intros H. exists (be_bytes n v). rewrite pack_be_ok by exact H.
  repeat split; [apply be_bytes_is_byte | apply bytes_bits_be_bytes].
Qed.
Lemma emits_pack_b v : -128 <= v <= 127 -> emits (pack_b v) (Zbits 8 v).
Proof.
  intros H. exists [v mod 256]. unfold pack_b. replace (_ && _) with true by lia.
  split; [|split].
  - reflexivity.
  - constructor; [|constructor]. unfold is_byte. lia.
  - unfold bytes_bits. cbn [flat_map]. rewrite app_nil_r. apply (Zbits_mod 8).
Qed.
Lemma emits_inj r l l' : emits r l -> emits r l' -> l = l'.
Proof. intros (x & -> & _ & <-) (y & [= ->] & _ & <-). reflexivity. Qed.
Lemma emits_rconcat {A} (f : A -> res (list Z)) (g : A -> list bool) l :
  Forall (fun x => emits (f x) (g x)) l -> emits (rconcat (map f l)) (flat_map g l).
Proof.
  induction 1 as [|x l Hx Hl IH]; cbn [map rconcat flat_map]; [apply emits_nil|].
  apply emits_app; assumption.
Qed.

(** [emits] decided by computation *)
Definition emits_check (r : res (list Z)) (l : list bool) : bool :=
  match r with
  | Ok bs => forallb (fun b => (0 <=? b) && (b <=? 255)) bs
             && (if list_eq_dec bool_dec (bytes_bits bs) l then true else false)
  | Err _ => false
  end.
Lemma emits_by_check r l : emits_check r l = true -> emits r l.
Proof.
  destruct r as [bs|e]; cbn [emits_check]; [|discriminate]. intros H.
  apply andb_true_iff in H as [H1 H2]. exists bs. split; [reflexivity|]. split.
  - apply Forall_forall. intros b Hb. rewrite forallb_forall in H1. apply H1 in Hb.
    unfold is_byte. lia.
  - destruct (list_eq_dec bool_dec (bytes_bits bs) l); [assumption | discriminate].
Qed.

(** ** Parsing *)
Lemma bindp_ok {A B} (p : P A) (f : A -> P B) s a s' : p s = Ok (a, s') -> bindp p f s = f a s'.
Proof. intros H. unfold bindp. rewrite H. reflexivity. Qed.

Lemma accepts_bind {A B} (p : P A) (f : A -> P B) la lb x y :
  accepts p la x -> accepts (f x) lb y -> accepts (bindp p f) (la ++ lb) y.
Proof.
  intros Hp Hf ps rest. rewrite <- app_assoc. rewrite (bindp_ok _ _ _ _ _ (Hp ps _)).
  rewrite Hf. rewrite app_length. do 3 f_equal. lia.
Qed.
Lemma accepts_bind_l {A B} (p : P A) (f : A -> P B) la x y :
  accepts p la x -> accepts (f x) [] y -> accepts (bindp p f) la y.
Proof. intros Hp Hf. rewrite <- (app_nil_r la). eapply accepts_bind; eassumption. Qed.
Lemma accepts_bind0 {A B} (p : P A) (f : A -> P B) lb x y :
  accepts p [] x -> accepts (f x) lb y -> accepts (bindp p f) lb y.
Proof. intros Hp Hf. apply (accepts_bind p f [] lb x y Hp Hf). Qed.
Lemma accepts_ret {A} (x : A) : accepts (ret x) [] x.
Proof. intros ps rest. unfold ret. cbn [app length]. do 3 f_equal. lia. Qed.
Lemma accepts_lift {A} (r : res A) x : r = Ok x -> accepts (lift r) [] x.
Proof. intros -> ps rest. unfold lift. cbn [app length]. do 3 f_equal. lia. Qed.
Lemma accepts_lift_ok {A} (x : A) : accepts (lift (Ok x)) [] x.
Proof. apply accepts_lift. reflexivity. Qed.
Lemma accepts_lift_eq {A} r (x y : A) : r = Ok x -> x = y -> accepts (lift r) [] y.
Proof. intros -> ->. apply accepts_lift_ok. Qed.

Lemma read_uint_app n l ps rest : length l = n ->
  read_uint n (St ps (l ++ rest)) = Ok (bits_val l, St (ps + n) rest).
Proof.
  intros H. unfold read_uint. cbn [bits pos]. rewrite app_length.
  replace (Nat.ltb (length l + length rest) n) with false by lia.
  rewrite firstn_app_exact, skipn_app_exact by exact H. reflexivity.
Qed.
Lemma accepts_uint n v : 0 <= v < 2 ^ Z.of_nat n -> accepts (read_uint n) (Zbits n v) v.
Proof.
  intros H ps rest. rewrite read_uint_app by apply Zbits_length.
  rewrite bits_val_Zbits_small, Zbits_length by exact H. reflexivity.
Qed.
Lemma accepts_uint_raw n l : length l = n -> accepts (read_uint n) l (bits_val l).
Proof. intros H ps rest. rewrite read_uint_app by exact H. rewrite H. reflexivity. Qed.
Lemma accepts_int n v : (0 < n)%nat -> - 2 ^ (Z.of_nat n - 1) <= v < 2 ^ (Z.of_nat n - 1) ->
  accepts (read_int n) (Zbits n v) v.
Proof.
  intros Hn H. unfold read_int.
  apply (accepts_bind_l _ _ _ (v mod 2 ^ Z.of_nat n)).
  - rewrite <- Zbits_mod. apply accepts_uint. apply Z.mod_pos_bound. lia.
  - assert (E : 2 ^ Z.of_nat n = 2 * 2 ^ (Z.of_nat n - 1)).
    { rewrite <- Z.pow_succ_r by lia. f_equal. lia. }
    set (h := 2 ^ (Z.of_nat n - 1)) in *. rewrite E.
    destruct (Z.lt_ge_cases v 0) as [Hneg|Hneg].
    + assert (E2 : v mod (2 * h) = v + 2 * h).
      { symmetry. apply Z.mod_unique with (-1); lia. }
      rewrite E2. replace (v + 2 * h <? h) with false by lia.
      replace (v + 2 * h - 2 * h) with v by lia. apply accepts_ret.
    + rewrite Z.mod_small by lia. replace (v <? h) with true by lia. apply accepts_ret.
Qed.
Lemma accepts_pad n l : length l = n -> accepts (read_pad n) l tt.
Proof.
  intros H. unfold read_pad. eapply accepts_bind_l; [apply accepts_uint_raw; exact H | apply accepts_ret].
Qed.
Lemma accepts_bool b : accepts read_bool [b] b.
Proof. intros ps rest. reflexivity. Qed.
Lemma accepts_bytes n l : Forall is_byte l -> zlen l = n -> accepts (read_bytes n) (bytes_bits l) l.
Proof.
  intros Hl Hn ps rest. unfold read_bytes. cbn [bits pos].
  pose proof (bytes_bits_length l) as L. unfold zlen in *. rewrite app_length.
  replace (_ <? _) with false by lia.
  replace (Z.to_nat (8 * n)) with (length (bytes_bits l)) by lia.
  rewrite firstn_app_exact, skipn_app_exact by reflexivity.
  rewrite bits_bytes_bytes_bits by exact Hl. reflexivity.
Qed.
Lemma accepts_inj {A} (p : P A) l x y : accepts p l x -> accepts p l y -> x = y.
Proof. intros Hx Hy. specialize (Hx O []). specialize (Hy O []). congruence. Qed.

(** ** Rejection *)
Lemma rejects_bind_first {A B} (p : P A) (f : A -> P B) l e :
  rejects p l e -> rejects (bindp p f) l e.
Proof. intros H ps rest. unfold bindp. rewrite H. reflexivity. Qed.
Lemma rejects_bind {A B} (p : P A) (f : A -> P B) la lb x e :
  accepts p la x -> rejects (f x) lb e -> rejects (bindp p f) (la ++ lb) e.
Proof.
  intros Hp Hf ps rest. rewrite <- app_assoc. rewrite (bindp_ok _ _ _ _ _ (Hp ps _)). apply Hf.
Qed.
Lemma rejects_bind0 {A B} (p : P A) (f : A -> P B) lb x e :
  accepts p [] x -> rejects (f x) lb e -> rejects (bindp p f) lb e.
Proof. apply (rejects_bind p f []). Qed.
Lemma rejects_lift {A} (r : res A) l e : r = Err e -> rejects (lift r) l e.
Proof. intros -> ps rest. reflexivity. Qed.
Lemma rejects_raise {A} l e : rejects (@raise A e) l e.
Proof. intros ps rest. reflexivity. Qed.

(** ** Inversion of successful parses (for [canonical]) *)
Lemma bindp_inv {A B} (p : P A) (f : A -> P B) s y s' :
  bindp p f s = Ok (y, s') -> exists a s1, p s = Ok (a, s1) /\ f a s1 = Ok (y, s').
Proof. unfold bindp. destruct (p s) as [[a s1]|e]; intros H; [eauto | discriminate]. Qed.
Lemma lift_inv {A} (r : res A) s x s' : lift r s = Ok (x, s') -> r = Ok x /\ s' = s.
Proof. unfold lift. destruct r; intros [= -> ->]; auto. Qed.
Lemma ret_inv {A} (a : A) s x s' : ret a s = Ok (x, s') -> x = a /\ s' = s.
Proof. unfold ret. intros [= -> ->]; auto. Qed.
Lemma read_uint_inv n s v s' : read_uint n s = Ok (v, s') ->
  0 <= v < 2 ^ Z.of_nat n /\ bits s = Zbits n v ++ bits s' /\ pos s' = (pos s + n)%nat.
Proof.
  unfold read_uint. destruct (Nat.ltb (length (bits s)) n) eqn:E; [discriminate|].
  intros [= <- <-]. cbn [bits pos].
  assert (L : length (firstn n (bits s)) = n) by (rewrite firstn_length; lia).
  repeat split.
  - apply bits_val_bounds.
  - pose proof (bits_val_bounds (firstn n (bits s))) as B. unfold zlen in B. rewrite L in B. apply B.
  - rewrite Zbits_bits_val' by exact L. symmetry. apply firstn_skipn.
Qed.
Lemma read_int_inv n s v s' : (0 < n)%nat -> read_int n s = Ok (v, s') ->
  - 2 ^ (Z.of_nat n - 1) <= v < 2 ^ (Z.of_nat n - 1) /\ bits s = Zbits n v ++ bits s'
  /\ pos s' = (pos s + n)%nat.
Proof.
  intros Hn H. unfold read_int in H. apply bindp_inv in H as (u & s1 & H1 & H2).
  apply ret_inv in H2 as [-> ->]. apply read_uint_inv in H1 as (Hu & Hb & Hp).
  assert (E : 2 ^ Z.of_nat n = 2 * 2 ^ (Z.of_nat n - 1)).
  { rewrite <- Z.pow_succ_r by lia. f_equal. lia. }
  rewrite E in *. set (h := 2 ^ (Z.of_nat n - 1)) in *.
  destruct (u <? h) eqn:C.
  - split; [lia|]. split; assumption.
  - split; [lia|]. split; [|assumption]. rewrite Hb. f_equal.
    rewrite <- (Zbits_mod n (u - 2 * h)), E. rewrite <- (Zbits_mod n u), E. f_equal.
    symmetry. replace (u - 2 * h) with (u + (-1) * (2 * h)) by lia. apply Z.mod_add. lia.
Qed.
Lemma read_bool_inv s b s' : read_bool s = Ok (b, s') ->
  bits s = [b] ++ bits s' /\ pos s' = (pos s + 1)%nat.
Proof. unfold read_bool. destruct (bits s); [discriminate|]. intros [= -> <-]. split; reflexivity. Qed.
Lemma read_pad_inv n s u s' : read_pad n s = Ok (u, s') ->
  exists l, length l = n /\ bits s = l ++ bits s' /\ pos s' = (pos s + n)%nat.
Proof.
  unfold read_pad. intros H. apply bindp_inv in H as (v & s1 & H1 & H2).
  apply ret_inv in H2 as [_ ->]. apply read_uint_inv in H1 as (Hv & Hb & Hp).
  exists (Zbits n v). rewrite Zbits_length. auto.
Qed.
Lemma read_bytes_inv n s l s' : 0 <= n -> read_bytes n s = Ok (l, s') ->
  zlen l = n /\ Forall is_byte l /\ bits s = bytes_bits l ++ bits s'
  /\ pos s' = (pos s + length (bytes_bits l))%nat.
Proof.
  intros Hn. unfold read_bytes. destruct (_ <? _) eqn:E; [discriminate|].
  assert (Hk : Z.to_nat (8 * n) = (8 * Z.to_nat n)%nat) by lia. revert Hk E.
  generalize (Z.to_nat (8 * n)). intros k Hk E [= <- <-].
  cbn [bits pos]. unfold zlen in *.
  assert (L : length (firstn k (bits s)) = (8 * Z.to_nat n)%nat)
    by (rewrite firstn_length; lia).
  rewrite (bytes_bits_bits_bytes (Z.to_nat n)), (bits_bytes_length (Z.to_nat n)) by exact L.
  refine (conj _ (conj _ (conj _ _))); [lia | apply bits_bytes_is_byte | symmetry; apply firstn_skipn | ].
  rewrite L. lia.
Qed.
Lemma validated_inv {A} b (x y : A) : validated b x = Ok y -> b = true /\ x = y.
Proof. unfold validated. destruct b; intros [= ->]; auto. Qed.
Lemma validated_ok {A} b (x : A) : b = true -> validated b x = Ok x.
Proof. intros ->. reflexivity. Qed.
Lemma validated_iff {A} b (x : A) : validated b x = Ok x <-> b = true.
Proof. unfold validated. destruct b; split; congruence. Qed.
Lemma validated_err {A} b (x : A) : b = false -> validated b x = Err ValueError.
Proof. intros ->. reflexivity. Qed.
