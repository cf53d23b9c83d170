(** Lemmas for C93 *)
From Coq Require Import ZifyBool ZifyNat Lia.
From Verif Require Import SConstruct LCommand.
Open Scope list_scope.
Open Scope Z_scope.

Lemma exists_nil {A} (f : A -> bool) l : existsb f l = false <-> filter f l = [].
Proof.
  induction l as [|a l IH]; [tauto|]. cbn [existsb filter]. destruct (f a); cbn [orb]; [split; discriminate | exact IH].
Qed.
Lemma acceptable_snoc t p a : acceptable t p -> (acceptable t (p ++ [a]) <-> refused_action t p a = None).
Proof.
  intros (F & S & T). unfold acceptable, refused_action, one_status, one_tag in *. rewrite !filter_snoc, !app_length.
  rewrite Forall_app.
  destruct (is_tag a) eqn:Ta.
  - assert (Sa : is_status a = false) by (unfold is_tag, is_status in *; destruct (a_kind a); discriminate || reflexivity).
    rewrite Sa. cbn [length]. destruct t as [x|].
    + split; [|discriminate]. intros (_ & _ & H). apply app_eq_nil in H. destruct H as [_ H]. discriminate H.
    + destruct (existsb is_tag p) eqn:Ep.
      * split; [|discriminate]. intros (_ & _ & H). assert (N : filter is_tag p = []) by (apply length_zero_iff_nil; lia).
        apply exists_nil in N. congruence.
      * apply exists_nil in Ep. rewrite Ep. cbn [length]. destruct (tag_id_of a) as [v|] eqn:Ev.
        -- split; [reflexivity|]. intros _. refine (conj (conj F _) (conj _ _)); [|lia|lia].
           constructor; [|constructor]. intros _. congruence.
        -- split; [|discriminate]. intros ((_ & H) & _). inversion H as [|? ? K _]; subst. exfalso. exact (K Ta Ev).
  - assert (Ta' : tag_typed a) by (intros H; congruence). rewrite !app_nil_r. cbn [length].
    destruct (is_status a) eqn:Sa; cbn [andb length].
    + destruct (existsb is_status p) eqn:Ep.
      * split; [|discriminate]. intros (_ & H & _). assert (N : filter is_status p = []) by (apply length_zero_iff_nil; lia).
        apply exists_nil in N. congruence.
      * apply exists_nil in Ep. rewrite Ep. cbn [length]. split; [reflexivity|]. intros _.
        refine (conj (conj F _) (conj _ _)); [constructor; [exact Ta' | constructor] | lia | destruct t; [exact T | lia]].
    + split; [reflexivity|]. intros _.
      refine (conj (conj F _) (conj _ _)); [constructor; [exact Ta' | constructor] | lia | destruct t; [exact T | lia]].
Qed.
Lemma acceptable_pre t p l : acceptable t (p ++ l) -> acceptable t p.
Proof.
  unfold acceptable, one_status, one_tag. rewrite Forall_app, !filter_app, !app_length. intros ([F _] & S & T).
  refine (conj F (conj _ _)); [lia|]. destruct t; [apply app_eq_nil in T; apply T | lia].
Qed.
Lemma acceptable_nil t : acceptable t [].
Proof. unfold acceptable, one_status, one_tag. cbn. repeat split; [constructor | lia | destruct t; [reflexivity | lia]]. Qed.
Lemma length_exists {A} (f : A -> bool) l : (length (filter f l) =? 0)%nat = negb (existsb f l).
Proof. induction l as [|a l IH]; [reflexivity|]. cbn [filter existsb]. destruct (f a); cbn [orb length]; [reflexivity | exact IH]. Qed.
Lemma may_refused t p a : tag_typed a -> may_follow t p a = match refused_action t p a with Some _ => false | None => true end /\
  (refused_action t p a = None \/ refused_action t p a = Some ParseError).
Proof.
  intros Ty. unfold may_follow, refused_action. rewrite !length_exists. unfold tag_typed in Ty.
  assert (X : is_tag a = true -> is_status a = false) by (unfold is_tag, is_status; destruct (a_kind a); discriminate || reflexivity).
  destruct (is_tag a).
  - rewrite (X eq_refl). destruct t, (existsb is_tag p), (tag_id_of a); cbn; auto; exfalso; apply (Ty eq_refl); reflexivity.
  - destruct (is_status a), (existsb is_status p); cbn; auto.
Qed.
Lemma add_init_outcome g t r p a : acceptable t p -> 
  add_init (command_of g t r p) a = match refused_action t p a with Some e => Err e | None => Ok (command_of g t r (p ++ [a])) end.
Proof.
  intros Ac. pose proof Ac as (F & S & T).
  destruct (is_tag a) eqn:Ta; [destruct (tag_id_of a) as [v|] eqn:Ev|].
  2:{ (* a tag action without a tag *)
    unfold refused_action. rewrite Ta, Ev. pose proof (command_of_tag g t r p F) as CT.
    assert (O : operand_tag (a_op a) = Err AttributeError) by (unfold tag_id_of in Ev; destruct (a_op a); try discriminate Ev; reflexivity).
    unfold is_tag in Ta. unfold add_init. destruct (c_tag (command_of g t r p)) as [x|] eqn:Ex.
    - assert (E : match t with Some _ => Some ParseError | None => if existsb is_tag p then Some ParseError else Some AttributeError end = Some ParseError).
      { destruct t; [reflexivity|]. destruct (existsb is_tag p) eqn:Ep; [reflexivity|]. apply exists_nil in Ep.
        discriminate (proj2 CT (conj Ep eq_refl)). }
      rewrite E. destruct (a_kind a); try discriminate Ta; reflexivity.
    - destruct CT as [CT _]. destruct (CT eq_refl) as [Et Eg]. subst t. apply exists_nil in Et. rewrite Et.
      destruct (a_kind a); try discriminate Ta; rewrite O; reflexivity. }
  - assert (Ty : tag_typed a) by (intros H; congruence). rewrite (add_init_spec g t r p a F Ty).
    destruct (may_refused t p a Ty) as [-> [-> | ->]]; reflexivity.
  - assert (Ty : tag_typed a) by (intros H; congruence). rewrite (add_init_spec g t r p a F Ty).
    destruct (may_refused t p a Ty) as [-> [-> | ->]]; reflexivity.
Qed.
Fixpoint first_refusal (t : option Z) (p l : list Action) : option exn :=
  match l with
  | [] => None
  | a :: q => match refused_action t p a with Some e => Some e | None => first_refusal t (p ++ [a]) q end
  end.
Lemma loop_outcome g t r l : forall p bad, acceptable t p ->
  command_loop l (command_of g t r p) bad =
  match first_refusal t p (present l) with Some e => Err e | None => Ok (command_of g t r (p ++ present l), bad || missing l) end.
Proof.
  induction l as [|[a|] l IH]; intros p bad Ac; cbn [command_loop present flat_map app first_refusal missing existsb].
  - rewrite app_nil_r, orb_false_r. reflexivity.
  - rewrite add_init_outcome by exact Ac. destruct (refused_action t p a) eqn:R; cbn [rbind]; [reflexivity|]. fold (present l).
    rewrite IH by (apply acceptable_snoc; assumption). rewrite <- app_assoc. reflexivity.
  - fold (present l). rewrite IH by exact Ac. rewrite orb_true_r, orb_true_l. reflexivity.
Qed.
Lemma first_none t l : forall p, acceptable t p -> (first_refusal t p l = None <-> acceptable t (p ++ l)).
Proof.
  induction l as [|a l IH]; intros p Ac; cbn [first_refusal]; [rewrite app_nil_r; tauto|].
  replace (p ++ a :: l) with ((p ++ [a]) ++ l) by (rewrite <- app_assoc; reflexivity).
  destruct (refused_action t p a) eqn:R.
  - split; [discriminate|]. intros H. apply acceptable_pre in H. apply (acceptable_snoc t p a Ac) in H. congruence.
  - apply IH. apply acceptable_snoc; assumption.
Qed.
Lemma first_some t l e : forall p, acceptable t p -> (first_refusal t p l = Some e <->
  exists pre a post, l = pre ++ a :: post /\ acceptable t (p ++ pre) /\ refused_action t (p ++ pre) a = Some e).
Proof.
  induction l as [|a l IH]; intros p Ac; cbn [first_refusal].
  - split; [discriminate|]. intros (pre & a & post & E & _). destruct pre; discriminate E.
  - destruct (refused_action t p a) as [x|] eqn:R.
    + split.
      * intros H. injection H as ->. exists [], a, l. rewrite app_nil_r. auto.
      * intros (pre & b & post & E & A & R'). destruct pre as [|c pre].
        -- rewrite app_nil_r in R'. injection E as <- _. congruence.
        -- injection E as <- _. replace (p ++ a :: pre) with ((p ++ [a]) ++ pre) in A by (rewrite <- app_assoc; reflexivity).
           apply acceptable_pre in A. apply (acceptable_snoc t p a Ac) in A. congruence.
    + rewrite IH by (apply acceptable_snoc; assumption). split; intros (pre & b & post & E & A & R').
      * exists (a :: pre), b, post. rewrite E. rewrite <- app_assoc in A, R'. auto.
      * destruct pre as [|c pre].
        -- rewrite app_nil_r in R'. injection E as <- _. congruence.
        -- injection E as <- E. exists pre, b, post. rewrite <- app_assoc. auto.
Qed.
Lemma command_of_generate g t r l : c_generate (command_of g t r l) = g.
Proof. unfold command_of. destruct (match filter is_tag l with [] => _ | _ :: _ => _ end) as [[[? ?] ?] ?]. reflexivity. Qed.
Lemma mk_outcome rnd l g t r : mk_command rnd l g t r =
  match first_refusal t [] (present l) with
  | Some e => Err e
  | None => if missing l then Err ValueError else Ok (with_random rnd (command_of g t r (present l)))
  end.
Proof.
  unfold mk_command. change (mkCommand [] None g t r false None) with (command_of g t r []).
  rewrite (loop_outcome g t r l [] false (acceptable_nil t)). cbn [app orb].
  destruct (first_refusal t [] (present l)); cbn [rbind]; [reflexivity|].
  unfold with_random. rewrite command_of_generate. destruct (missing l); cbn [negb validated]; [reflexivity|].
  destruct g; [|reflexivity]. match goal with |- context [c_tag ?c] => destruct (c_tag c) end; reflexivity.
Qed.
Lemma made rnd l g t r c : mk_command rnd l g t r = Ok c <->
  acceptable t (present l) /\ missing l = false /\ c = with_random rnd (command_of g t r (present l)).
Proof.
  rewrite mk_outcome. pose proof (first_none t (present l) [] (acceptable_nil t)) as N. cbn [app] in N. rewrite <- N.
  destruct (first_refusal t [] (present l)); [split; [discriminate | intros [H _]; discriminate H]|].
  destruct (missing l); split; try discriminate; try (intros (_ & H & _); discriminate H).
  - intros H. injection H as <-. auto.
  - intros (_ & _ & ->). reflexivity.
Qed.
Lemma not_made rnd l g t r e : mk_command rnd l g t r = Err e <->
  (exists before a after, present l = before ++ a :: after /\ acceptable t before /\ refused_action t before a = Some e)
  \/ (acceptable t (present l) /\ missing l = true /\ e = ValueError).
Proof.
  rewrite mk_outcome. pose proof (first_none t (present l) [] (acceptable_nil t)) as N. cbn [app] in N. rewrite <- N.
  pose proof (first_some t (present l) e [] (acceptable_nil t)) as S. cbn [app] in S. rewrite <- S.
  destruct (first_refusal t [] (present l)) as [x|].
  - split; [intros H; injection H as ->; auto | intros [H|[H _]]; [injection H as ->; reflexivity | discriminate H]].
  - destruct (missing l); split; try discriminate.
    + intros H. injection H as <-. auto.
    + intros [H|(_ & _ & ->)]; [discriminate H | reflexivity].
    + intros [H|(_ & H & _)]; discriminate H.
Qed.
(** the random tag of a command without one *)
Lemma random_tag rnd l g r : one_tag l -> Forall tag_typed l ->
  c_tag (with_random rnd (command_of g None r l)) =
  match filter is_tag l with a :: _ => tag_id_of a | [] => if g then Some rnd else None end.
Proof.
  intros _ F. unfold with_random. rewrite command_of_generate. unfold command_of.
  destruct (filter is_tag l) as [|a q] eqn:E.
  - cbn [c_tag]. destruct g; reflexivity.
  - destruct (filter_hd _ _ _ _ E) as [T I]. rewrite Forall_forall in F. specialize (F a I T). unfold is_tag in T.
    destruct (a_kind a); try discriminate T; cbn [c_tag]; destruct (tag_id_of a); try congruence; destruct g; reflexivity.
Qed.
Lemma made_wire rnd l g t r c : mk_command rnd l g t r = Ok c -> filter is_status (present l) = [] ->
  Forall (fun a => plain a = true -> action_wf a) (present l) -> (g = true -> exists v, c_tag c = Some v /\ 0 <= v <= 255) ->
  emits (command_ser c)
    ((match g, c_tag c with true, Some v => tag_bits (c_respond c) v | _, _ => [] end) ++ flat_map action_layout (filter plain (present l)))
  /\ c_respond c = match filter is_tag (present l) with a :: _ => match a_kind a with TagReqAct x => x | _ => r end | [] => r end.
Proof.
  intros M S W T. apply made in M. destruct M as (Ac & _ & E).
  assert (P : c_actions c = filter plain (present l) /\ c_status c = None /\ c_generate c = g
     /\ c_respond c = match filter is_tag (present l) with a :: _ => match a_kind a with TagReqAct x => x | _ => r end | [] => r end).
  { assert (Q : forall c', with_random rnd c' = c -> c_actions c = c_actions c' /\ c_status c = c_status c' /\ c_generate c = c_generate c' /\ c_respond c = c_respond c').
    { intros c' <-. unfold with_random. destruct c' as [x1 x2 [] [x4|] x5 x6 x7]; cbn; auto. }
    destruct (Q _ (eq_sym E)) as (-> & -> & -> & ->). rewrite command_of_actions, command_of_status, command_of_generate, S.
    refine (conj eq_refl (conj eq_refl (conj eq_refl _))). unfold command_of. destruct (filter is_tag (present l)) as [|a q]; [reflexivity|].
    destruct (a_kind a); reflexivity. }
  destruct P as (Pa & Ps & Pg & Pr). split; [|exact Pr].
  assert (WF : command_wf c).
  { unfold command_wf. rewrite Pa, Ps, Pg. refine (conj _ (conj _ (conj eq_refl T))).
    - rewrite Forall_forall in *. intros a I. apply filter_In in I. destruct I as [I P]. exact (W a I P).
    - apply forallb_forall. intros a I. apply filter_In in I. apply I. }
  pose proof (command_emits c WF) as K. unfold command_layout in K. rewrite Pa, Pg in K. destruct g, (c_tag c); exact K.
Qed.
