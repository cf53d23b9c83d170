(** Lemmas for C80: sets, dicts and changed objects. *)
From Coq Require Import Lia ZifyBool.
From Verif Require Import MBase MEq SEq LEq SHash LHash.
Open Scope Z_scope.

Lemma number_or_object t : (exists b z, t_value t = VNumber b z) \/ an_object t.
Proof. unfold an_object. destruct (t_value t); eauto. Qed.
Lemma match_key big l t u : coherent l -> no_accident big l -> In t l -> In u l -> matches big t u = true <-> one_key t u.
Proof.
  intros C N T U. destruct (number_or_object t) as [(b & z & V)|O]; destruct (number_or_object u) as [(b' & z' & V')|O'].
  - unfold one_key. rewrite V, V'. destruct (Z.eq_dec (t_addr t) (t_addr u)) as [E|D].
    + destruct C as (_ & C & _). pose proof (C t u T U E) as W. rewrite V, V' in W. injection W as <- <-.
      unfold matches, same_or_equal, is_thing, py_hash. rewrite V, V', E, !Z.eqb_refl. cbn. split; reflexivity.
    + apply (match_numbers big t u b b' z z' V V' D).
  - destruct (match_mixed big l u t b z C U T O' V) as [_ M]. rewrite M. split.
    + intros A. destruct (N u t U T A).
    + unfold one_key, an_object in *. rewrite V. destruct (t_value u); tauto.
  - destruct (match_mixed big l t u b' z' C T U O V') as [M _]. rewrite M. split.
    + intros A. destruct (N t u T U A).
    + unfold one_key, an_object in *. rewrite V'. destruct (t_value t); tauto.
  - rewrite (match_objects big l t u C T U O O'). unfold one_key, an_object in *.
    destruct (t_value t), (t_value u); try tauto; split; congruence.
Qed.
Lemma key_sym t u : one_key t u -> one_key u t.
Proof. unfold one_key. destruct (t_value t), (t_value u); congruence. Qed.
Lemma key_trans t u w : one_key t u -> one_key u w -> one_key t w.
Proof. unfold one_key. destruct (t_value t), (t_value u), (t_value w); try tauto; congruence. Qed.
Lemma key_refl t : one_key t t.
Proof. unfold one_key. destruct (t_value t); reflexivity. Qed.

(** dict: what is stored under one key is found under it and only there *)
Lemma get_put {V} big (d : list (Thing * V)) t v u : coherent (t :: u :: keys d) -> no_accident big (t :: u :: keys d) ->
  (one_key t u -> dict_get big (dict_put big d t v) u = Some v) /\
  (~ one_key t u -> dict_get big (dict_put big d t v) u = dict_get big d u).
Proof.
  assert (forall l : list (Thing * V), coherent (t :: u :: keys d) -> no_accident big (t :: u :: keys d) ->
    (forall e, In e l -> In (fst e) (t :: u :: keys d)) ->
    (one_key t u -> dict_get big (dict_put big l t v) u = Some v) /\
    (~ one_key t u -> dict_get big (dict_put big l t v) u = dict_get big l u)) as X.
  { intros l C N. induction l as [|[w x] r IH]; intros K; unfold dict_get; cbn [dict_put find fst snd option_map].
    - pose proof (match_key big _ u t C N ltac:(right; now left) ltac:(now left)) as M. split; intros Q.
      + apply key_sym in Q. apply M in Q. rewrite Q. reflexivity.
      + destruct (matches big u t) eqn:E; [|reflexivity]. destruct Q. apply key_sym, M. reflexivity.
    - specialize (IH (fun e I => K e (or_intror I))). destruct IH as [IH1 IH2].
      pose proof (K (w, x) ltac:(now left)) as W. cbn [fst] in W.
      pose proof (match_key big _ t w C N ltac:(now left) W) as MT.
      pose proof (match_key big _ u w C N ltac:(right; now left) W) as MU.
      destruct (matches big t w) eqn:ET; cbn [find fst snd option_map].
      + assert (one_key t w) as KT by (apply MT; reflexivity). split; intros Q.
        * assert (matches big u w = true) as -> by (apply MU; eapply key_trans; [apply key_sym; exact Q|exact KT]). reflexivity.
        * assert (matches big u w = false) as ->; [|reflexivity].
          destruct (matches big u w) eqn:EU; [|reflexivity]. destruct Q. apply key_trans with w; [exact KT|]. apply key_sym, MU. reflexivity.
      + destruct (matches big u w) eqn:EU; cbn [option_map snd].
        * split; intros Q; [|reflexivity]. exfalso. assert (false = true) as F by (apply MT; apply key_trans with u; [exact Q|apply MU; reflexivity]). discriminate.
        * exact (conj IH1 IH2). }
  intros C N. apply X; auto. intros e I. right. right. unfold keys. apply in_map. exact I.
Qed.

Lemma NoDup_app_snoc {A} (l : list A) x : NoDup l -> ~ In x l -> NoDup (l ++ [x]).
Proof.
  intros D N. induction D as [|y r NI D IH]; cbn; [repeat constructor; auto|]. constructor.
  - intros I. apply in_app_or in I as [I|[E|[]]]; [auto|]. subst. apply N. now left.
  - apply IH. intros I. apply N. now right.
Qed.
(** a set has one entry for each object *)
Lemma has_objects big s t : coherent (t :: s) -> an_object t -> Forall an_object s ->
  set_has big s t = true <-> In (t_addr t) (map t_addr s).
Proof.
  intros C O F. rewrite (set_object big s t C O). rewrite in_map_iff. rewrite Forall_forall in F. split.
  - intros (u & I & [[_ E]|(l & _ & E & _)]); [eauto|]. specialize (F u I). unfold an_object in F. rewrite E in F. destruct F.
  - intros (u & E & I). exists u. split; [exact I|]. left. auto.
Qed.
Lemma set_of_objects big l : coherent l -> Forall an_object l ->
  NoDup (map t_addr (set_of big l)) /\ forall a, In a (map t_addr (set_of big l)) <-> In a (map t_addr l).
Proof.
  intros C0 F0. unfold set_of.
  assert (forall l s, coherent (s ++ l) -> Forall an_object (s ++ l) -> NoDup (map t_addr s) ->
    NoDup (map t_addr (fold_left (set_add big) l s)) /\
    forall a, In a (map t_addr (fold_left (set_add big) l s)) <-> In a (map t_addr s) \/ In a (map t_addr l)) as X.
  { clear. induction l as [|t r IH]; intros s C F D; cbn [fold_left].
    - split; [exact D|]. intros a. cbn. tauto.
    - assert (an_object t /\ Forall an_object s) as [OT FS].
      { apply Forall_app in F as [A B]. apply Forall_cons_iff in B. tauto. }
      assert (coherent (t :: s)) as CT by (eapply coherent_sub; [|exact C]; cbn; intros x [<-|I]; apply in_or_app; cbn; auto).
      pose proof (has_objects big s t CT OT FS) as H. unfold set_add at 2 4. destruct (set_has big s t) eqn:E.
      + assert (coherent (s ++ r)) as C' by (eapply coherent_sub; [|exact C]; intros x I; apply in_app_or in I; apply in_or_app; cbn; tauto).
        assert (Forall an_object (s ++ r)) as F' by (apply Forall_app in F as [A B]; apply Forall_cons_iff in B; apply Forall_app; tauto).
        destruct (IH s C' F' D) as [A B]. split; [exact A|]. intros a. rewrite B. cbn [map In].
        assert (t_addr t = a -> In a (map t_addr s)) by (intros <-; apply H; reflexivity). tauto.
      + assert (~ In (t_addr t) (map t_addr s)) as N by (intros I; apply H in I; discriminate).
        assert (s ++ t :: r = (s ++ [t]) ++ r) as EQ by (rewrite <- app_assoc; reflexivity).
        rewrite EQ in C, F.
        destruct (IH (s ++ [t]) C F) as [A B].
        * rewrite map_app. cbn [map]. apply NoDup_app_snoc; assumption.
        * split; [exact A|]. intros a. rewrite B, map_app, in_app_iff. cbn [map In]. tauto. }
  destruct (X l [] C0 F0 ltac:(constructor)) as [A B]. split; [exact A|]. intros a. rewrite B. cbn. tauto.
Qed.

(** changing the attributes of an object *)
Lemma changed_addr a v t : t_addr (changed a v t) = t_addr t.
Proof. unfold changed. destruct (Z.eqb_spec (t_addr t) a) as [<-|]; reflexivity. Qed.
Lemma changed_object a v t : has_ne v -> an_object t -> an_object (changed a v t).
Proof. unfold changed. destruct (t_addr t =? a); [|auto]. unfold has_ne, an_object. cbn. destruct v as [| | | | |[]|]; cbn; tauto. Qed.
Lemma changed_coherent a v l : has_ne v -> coherent l -> coherent (map (changed a v) l).
Proof.
  intros H (A & B & C). refine (conj _ (conj _ _)).
  - intros t I. apply in_map_iff in I as (x & <- & I). rewrite changed_addr. auto.
  - intros t u T U E. apply in_map_iff in T as (x & <- & T). apply in_map_iff in U as (y & <- & U). rewrite !changed_addr in E.
    unfold changed. rewrite E. destruct (t_addr y =? a); [reflexivity|]. auto.
  - intros t u i T U. apply in_map_iff in T as (x & <- & T). apply in_map_iff in U as (y & <- & U). rewrite !changed_addr. unfold changed.
    destruct (t_addr x =? a) eqn:X, (t_addr y =? a) eqn:Y; cbn [t_value]; intros V W.
    + lia.
    + subst v. destruct H.
    + subst v. destruct H.
    + eapply C; eassumption.
Qed.
Lemma found_again big s t a v : coherent (t :: s) -> an_object t -> Forall an_object s -> has_ne v ->
  set_has big (map (changed a v) s) (changed a v t) = set_has big s t.
Proof.
  intros C O F H.
  assert (Forall an_object (map (changed a v) s)) as F'.
  { apply Forall_forall. intros x I. apply in_map_iff in I as (y & <- & I). rewrite Forall_forall in F. apply changed_object; auto. }
  pose proof (has_objects big s t C O F) as X.
  pose proof (has_objects big (map (changed a v) s) (changed a v t) (changed_coherent a v (t :: s) H C) (changed_object a v t H O) F') as Y.
  rewrite changed_addr, map_map in Y.
  assert (map (fun x => t_addr (changed a v x)) s = map t_addr s) as M by (apply map_ext; intros; apply changed_addr). rewrite M in Y.
  destruct (set_has big s t), (set_has big (map (changed a v) s) (changed a v t)); try reflexivity; [apply Y, X|symmetry; apply X, Y]; reflexivity.
Qed.
