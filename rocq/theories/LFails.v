(** Lemmas for C20: with what a received command fails when it is serialized again *)
From Verif Require Import Bits LBits LAlp LParsed LReser SCommand MAlp.
Open Scope list_scope.
Open Scope Z_scope.

Definition only_err (x : exn) (r : res (list Z)) : Prop := forall e, r = Err e -> e = x.
Lemma only_err_ok x r : is_ok r = true -> only_err x r.
Proof. intros H e ->. discriminate. Qed.
Lemma only_err_app x a b : only_err x a -> (is_ok a = true -> only_err x b) -> only_err x (a +++ b).
Proof.
  intros A B e E. destruct a as [u|u]; [|apply A; rewrite <- E; reflexivity]. apply (B eq_refl). destruct b as [v|v]; [discriminate E|]. exact E.
Qed.
Lemma only_err_concat {A} x (f : A -> res (list Z)) l : (forall a, In a l -> only_err x (f a)) -> only_err x (rconcat (map f l)).
Proof.
  induction l as [|a l IH]; intros H; [intros e E; discriminate E|]. cbn [map rconcat]. apply only_err_app; [apply H; left; reflexivity|].
  intros _. apply IH. intros b I. apply H. right. exact I.
Qed.
Lemma parsed_fails a : act_parsed a -> is_tag a = false -> only_err (if bodyless a then TypeError else AttributeError) (action_ser a).
Proof.
  intros P T. pose proof (parsed_ser a P T) as K.
  destruct (is_ok (action_ser a)) eqn:E; [apply only_err_ok; exact E|].
  symmetry in K. apply andb_false_iff in K. rewrite !negb_false_iff in K.
  destruct (bodyless a) eqn:Bd.
  - clear K. destruct a as [k o]. unfold bodyless in Bd. destruct P as [W H]. cbn [a_kind a_op] in *.
    destruct k; destruct o as [| | | | | | | | |[i st]| | | |]; try discriminate Bd; try contradiction.
    destruct H as [-> H]. cbn [iso_id iso_status] in *. destruct st as [st|]; [discriminate Bd|]. intros e X.
    destruct H as [-> | ->]; vm_compute in X; congruence.
  - destruct K as [K|K]; [|discriminate K]. destruct a as [k o]. unfold is_forward in K. cbn [a_kind] in K.
    destruct k; try discriminate K. intros e H. injection H; auto.
Qed.
Lemma reser_fails n s c s' e : (pos s mod 8 = 0)%nat -> alp_parse n s = Ok (c, s') -> command_ser c = Err e ->
  e = match c_status c with Some a => if bodyless a then TypeError else AttributeError | None => AttributeError end.
Proof.
  intros Hs E. destruct (alp_parsed n s c s' Hs E) as (l & _ & F & T & S & ->). rewrite Forall_forall in F. revert e.
  match goal with |- forall e, _ -> e = ?x => change (only_err x (command_ser (command_of false None true l))) end.
  unfold command_ser. rewrite command_of_actions, command_of_status.
  replace (c_generate _) with false
    by (unfold command_of; destruct (match filter is_tag l with [] => _ | _ :: _ => _ end) as [[[? ?] ?] ?]; reflexivity).
  assert (X : forall x, only_err x (Ok [])) by (intros x e X; discriminate X).
  assert (B : only_err AttributeError (rconcat (map action_ser (filter plain l)))).
  { apply only_err_concat. intros a I. apply filter_In in I as [I P].
    assert (Bd : bodyless a = false).
    { destruct (F a I) as [_ H]. unfold plain, is_status, is_tag, bodyless in *.
      destruct (a_kind a), (a_op a); try contradiction; try reflexivity. destruct H as [-> _]. discriminate. }
    replace AttributeError with (if bodyless a then TypeError else AttributeError) by (rewrite Bd; reflexivity).
    apply parsed_fails; [auto|]. unfold plain in P. destruct (is_tag a); [discriminate | reflexivity]. }
  apply only_err_app; [apply X|]. intros _.
  destruct (filter is_status l) as [|a r] eqn:Es; cbn [hd_error].
  - apply only_err_app; [apply X | intros _; exact B].
  - destruct (filter_hd _ _ _ _ Es) as [Sa Ia].
    assert (Ta : is_tag a = false) by (unfold is_status, is_tag in *; destruct (a_kind a); discriminate || reflexivity).
    apply only_err_app; [apply parsed_fails; auto|]. rewrite (parsed_ser a (F a Ia) Ta). intros K.
    apply andb_true_iff in K. rewrite !negb_true_iff in K. destruct K as [_ ->]. exact B.
Qed.
