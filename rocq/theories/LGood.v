(** What every parser of the model satisfies on arbitrary input.

    [good k Q E p]: run on any stream whose position is [k] modulo 8, [p]
    - when it succeeds, has consumed a prefix of the stream whose length
      satisfies [Q], and would have done the same with more bits appended;
    - when it fails, fails with an exception in [E], and unless the failure is
      "end of data" it fails in the same way with more bits appended. *)
From Coq Require Import ZifyBool ZifyNat.
From Verif Require Export LParse.
Ltac Zify.zify_post_hook ::= Z.div_mod_to_equations.

Definition is_eof (e : exn) : bool := match e with ReadError | BoolEof => true | _ => false end.

Definition ext (s : stream) (x : list bool) : stream := St (pos s) (bits s ++ x).

Definition good {A} (k : nat) (Q : nat -> Prop) (E : exn -> bool) (p : P A) : Prop :=
  forall s, (pos s mod 8 = k mod 8)%nat ->
    match p s with
    | Ok (a, s') =>
        exists c, bits s = c ++ bits s' /\ pos s' = (pos s + length c)%nat /\ Q (length c)
                  /\ forall x, p (ext s x) = Ok (a, ext s' x)
    | Err e => E e = true /\ (is_eof e = false -> forall x, p (ext s x) = Err e)
    end.

Lemma good_weaken {A} k k' (Q Q' : nat -> Prop) (E E' : exn -> bool) (p : P A) :
  good k Q E p -> (k mod 8 = k' mod 8)%nat -> (forall n, Q n -> Q' n) ->
  (forall e, E e = true -> E' e = true) -> good k' Q' E' p.
Proof.
  intros H Hk HQ HE s Hs. specialize (H s). rewrite Hk in H. specialize (H Hs).
  destruct (p s) as [[a s']|e].
  - destruct H as (c & H1 & H2 & H3 & H4). exists c. auto.
  - destruct H. auto.
Qed.

Lemma good_bind {A B} k (Q1 Q : nat -> Prop) E (p : P A) (f : A -> P B) :
  good k Q1 E p -> (forall a n, Q1 n -> good (k + n) (fun m => Q (n + m)%nat) E (f a)) ->
  good k Q E (bindp p f).
Proof.
  intros Hp Hf s Hs. specialize (Hp s Hs). unfold bindp.
  destruct (p s) as [[a s1]|e] eqn:E1.
  - destruct Hp as (c & Hb & Hpos & HQ & Hx).
    assert (Hs1 : (pos s1 mod 8 = (k + length c) mod 8)%nat).
    { rewrite Hpos. rewrite Nat.add_mod, Hs, <- Nat.add_mod by lia. reflexivity. }
    specialize (Hf a (length c) HQ s1 Hs1).
    destruct (f a s1) as [[b s2]|e].
    + destruct Hf as (d & Hb2 & Hpos2 & HQ2 & Hx2). exists (c ++ d). rewrite app_length.
      repeat split.
      * rewrite Hb, Hb2, app_assoc. reflexivity.
      * lia.
      * exact HQ2.
      * intros x. rewrite Hx. apply Hx2.
    + destruct Hf as [HE Hx2]. split; [exact HE|]. intros He x. rewrite Hx. apply Hx2. exact He.
  - destruct Hp as [HE Hx]. split; [exact HE|]. intros He x. rewrite Hx by exact He. reflexivity.
Qed.

Lemma good_ret {A} k (Q : nat -> Prop) E (a : A) : Q 0%nat -> good k Q E (ret a).
Proof. intros H s _. exists []. cbn [app length]. repeat split; auto. Qed.
Lemma good_raise {A} k Q E e : E e = true -> good k Q E (@raise A e).
Proof. intros H s _. split; [exact H|]. reflexivity. Qed.
Lemma good_lift {A} k (Q : nat -> Prop) (E : exn -> bool) (r : res A) :
  Q 0%nat -> (forall e, r = Err e -> E e = true) -> good k Q E (lift r).
Proof.
  intros HQ HE s _. unfold lift. destruct r.
  - exists []. cbn [app length]. repeat split; auto.
  - split; [auto|]. reflexivity.
Qed.
Lemma good_lift_bind {A B} k Q (E : exn -> bool) (r : res A) (f : A -> P B) :
  (forall e, r = Err e -> E e = true) -> (forall a, r = Ok a -> good k Q E (f a)) ->
  good k Q E (bindp (lift r) f).
Proof.
  intros HE Hf. destruct r as [a|e].
  - intros s Hs. unfold bindp, lift. apply (Hf a eq_refl s Hs).
  - intros s _. unfold bindp, lift. split; [auto | reflexivity].
Qed.
Lemma good_ret_bind {A B} k Q E (a : A) (f : A -> P B) :
  good k Q E (f a) -> good k Q E (bindp (ret a) f).
Proof. intros H s Hs. apply (H s Hs). Qed.
Lemma good_raise_bind {A B} k Q E e (f : A -> P B) : E e = true -> good k Q E (bindp (raise e) f).
Proof. intros H s _. split; [exact H | reflexivity]. Qed.
Lemma good_assoc {A B C} k Q E (p : P A) (f : A -> P B) (g : B -> P C) :
  good k Q E (bindp p (fun x => bindp (f x) g)) -> good k Q E (bindp (bindp p f) g).
Proof.
  intros H s Hs. specialize (H s Hs). unfold bindp in *. cbv beta in *.
  destruct (p s) as [[a s1]|e] eqn:Ep.
  - destruct (f a s1) as [[b s2]|e] eqn:Ef.
    + destruct (g b s2) as [[c s3]|e] eqn:Eg.
      * destruct H as (d & H1 & H2 & H3 & H4). exists d. repeat split; auto.
        intros x. specialize (H4 x). destruct (p (ext s x)) as [[a' s1']|]; [|exact H4].
        destruct (f a' s1') as [[b' s2']|]; [exact H4 | exact H4].
      * destruct H as [HE H]. split; [exact HE|]. intros He x. specialize (H He x).
        destruct (p (ext s x)) as [[a' s1']|]; [|exact H].
        destruct (f a' s1') as [[b' s2']|]; exact H.
    + destruct H as [HE H]. split; [exact HE|]. intros He x. specialize (H He x).
      destruct (p (ext s x)) as [[a' s1']|]; [|exact H].
      destruct (f a' s1') as [[b' s2']|]; exact H.
  - destruct H as [HE H]. split; [exact HE|]. intros He x. specialize (H He x).
    destruct (p (ext s x)) as [[a' s1']|]; [|exact H].
    destruct (f a' s1') as [[b' s2']|]; exact H.
Qed.

Lemma good_uint0 k (E : exn -> bool) n : E ReadError = true -> good k (fun m => m = n) E (read_uint n).
Proof.
  intros HE s _. unfold read_uint at 1. destruct (Nat.ltb (length (bits s)) n) eqn:L.
  - split; [exact HE | discriminate].
  - exists (firstn n (bits s)). cbn [bits pos]. rewrite firstn_length.
    refine (conj _ (conj _ (conj _ _))).
    + symmetry. apply firstn_skipn.
    + lia.
    + lia.
    + intros x. unfold read_uint, ext. cbn [bits pos]. rewrite app_length.
      replace (Nat.ltb _ n) with false by lia.
      rewrite firstn_app, skipn_app. replace (n - length (bits s))%nat with 0%nat by lia.
      cbn [firstn skipn]. rewrite app_nil_r. reflexivity.
Qed.
Lemma good_uint k (Q : nat -> Prop) (E : exn -> bool) n : E ReadError = true -> Q n -> good k Q E (read_uint n).
Proof.
  intros HE HQ. eapply good_weaken; [apply good_uint0; exact HE | reflexivity | | auto].
  intros m ->. exact HQ.
Qed.
Lemma good_uint_bind {B} k Q (E : exn -> bool) n (f : Z -> P B) : E ReadError = true ->
  (forall v, 0 <= v < 2 ^ Z.of_nat n -> good (k + n) (fun m => Q (n + m)%nat) E (f v)) ->
  good k Q E (bindp (read_uint n) f).
Proof.
  intros HE Hf s Hs. pose proof (good_uint0 k E n HE s Hs) as G0. unfold bindp.
  destruct (read_uint n s) as [[v s1]|e] eqn:R.
  - apply read_uint_inv in R as (Hv & _ & _).
    destruct G0 as (c & Hb & Hpos & HQ & Hx).
    assert (Hs1 : (pos s1 mod 8 = (k + n) mod 8)%nat).
    { rewrite Hpos, HQ. rewrite Nat.add_mod, Hs, <- Nat.add_mod by lia. reflexivity. }
    specialize (Hf v Hv s1 Hs1). destruct (f v s1) as [[b s2]|e].
    + destruct Hf as (d & Hb2 & Hpos2 & HQ2 & Hx2). exists (c ++ d). rewrite app_length.
      refine (conj _ (conj _ (conj _ _))).
      * rewrite Hb, Hb2, app_assoc. reflexivity.
      * lia.
      * rewrite HQ. exact HQ2.
      * intros x. rewrite Hx. apply Hx2.
    + destruct Hf as [HE2 Hx2]. split; [exact HE2|]. intros He x. rewrite Hx. apply Hx2. exact He.
  - destruct G0 as [HE2 Hx2]. split; [exact HE2|]. intros He x. rewrite Hx2 by exact He. reflexivity.
Qed.
Lemma good_bool k (Q : nat -> Prop) (E : exn -> bool) : E BoolEof = true -> Q 1%nat -> good k Q E read_bool.
Proof.
  intros HE HQ s _. unfold read_bool at 1. destruct (bits s) as [|b l] eqn:L.
  - split; [exact HE | discriminate].
  - exists [b]. cbn [bits pos length app]. repeat split; [exact HQ|].
    intros x. unfold read_bool, ext. cbn [bits pos]. rewrite L. reflexivity.
Qed.
Lemma good_bool_bind {B} k Q (E : exn -> bool) (f : bool -> P B) : E BoolEof = true ->
  (forall v, good (k + 1) (fun m => Q (1 + m)%nat) E (f v)) -> good k Q E (bindp read_bool f).
Proof.
  intros HE Hf. eapply (good_bind k (fun m => m = 1%nat)); [apply good_bool; auto|].
  intros a n ->. apply Hf.
Qed.
Lemma good_pad_bind {B} k Q (E : exn -> bool) n (f : unit -> P B) : E ReadError = true ->
  (forall v, good (k + n) (fun m => Q (n + m)%nat) E (f v)) -> good k Q E (bindp (read_pad n) f).
Proof.
  intros HE Hf. unfold read_pad. apply good_assoc. apply good_uint_bind; [exact HE|].
  intros v _. apply good_ret_bind. apply Hf.
Qed.
Lemma good_int_bind {B} k Q (E : exn -> bool) n (f : Z -> P B) : E ReadError = true ->
  (forall v, good (k + n) (fun m => Q (n + m)%nat) E (f v)) -> good k Q E (bindp (read_int n) f).
Proof.
  intros HE Hf. unfold read_int. apply good_assoc. apply good_uint_bind; [exact HE|].
  intros v _. apply good_ret_bind. apply Hf.
Qed.
Lemma good_bytes0 k (E : exn -> bool) n : E ReadError = true ->
  good k (fun m => m = Z.to_nat (8 * n)) E (read_bytes n).
Proof.
  intros HE s _. unfold read_bytes. set (j := 8 * n). clearbody j. clear n.
  destruct (_ <? _) eqn:L.
  - split; [exact HE | discriminate].
  - unfold zlen in *.
    exists (firstn (Z.to_nat j) (bits s)). cbn [bits pos]. rewrite firstn_length.
    refine (conj _ (conj _ (conj _ _))).
    + symmetry. apply firstn_skipn.
    + lia.
    + lia.
    + intros x. unfold ext. cbn [bits pos]. rewrite app_length.
      replace (_ <? _) with false by lia.
      rewrite firstn_app, skipn_app. replace (Z.to_nat j - length (bits s))%nat with 0%nat by lia.
      cbn [firstn skipn]. rewrite app_nil_r. reflexivity.
Qed.
Lemma good_bytes_bind {B} k (Q : nat -> Prop) (E : exn -> bool) n (f : list Z -> P B) : E ReadError = true ->
  (forall v, good (k + 8 * Z.to_nat n) (fun m => Q (8 * Z.to_nat n + m)%nat) E (f v)) ->
  good k Q E (bindp (read_bytes n) f).
Proof.
  intros HE Hf. eapply good_bind; [apply good_bytes0; exact HE|]. cbv beta.
  intros a m ->. replace (Z.to_nat (8 * n)) with (8 * Z.to_nat n)%nat by lia. apply Hf.
Qed.
Lemma good_bytes k (Q : nat -> Prop) (E : exn -> bool) n : E ReadError = true ->
  Q (8 * Z.to_nat n)%nat -> good k Q E (read_bytes n).
Proof.
  intros HE HQ. eapply good_weaken; [apply good_bytes0; exact HE | reflexivity | | auto].
  cbv beta. intros m ->. replace (Z.to_nat (8 * n)) with (8 * Z.to_nat n)%nat by lia. exact HQ.
Qed.

(** whole bytes *)
Definition whole (n : nat) : Prop := (n mod 8 = 0)%nat.
(** at least one whole byte *)
Definition whole1 (n : nat) : Prop := (n mod 8 = 0 /\ 8 <= n)%nat.
