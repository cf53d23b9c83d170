From Coq Require Import Lia.
From Verif Require Import MBase MCt MSp MOperands MAlp SShare LShare LShare2.

Lemma le_keep h h' : keep (length h) h h' -> le h h'.
Proof. intros [_ K] r o E _. rewrite K by (eapply nth_lt, E). exact E. Qed.
Lemma agree_valid {A} (g : Store -> Ref -> option A) h h' r v : valid h g -> g h r = Some v -> le h h' -> agree h h' r.
Proof. intros V G L n R. destruct (V _ _ _ G R) as (o&E&C). rewrite (L _ _ E C). now rewrite E. Qed.

(** [old n h r S]: of the objects below [n], [r] reaches those in [S] *)
Definition old (n : nat) (h : Store) (r : Ref) (S : Ref -> Prop) : Prop := forall x, (x < n)%nat -> (reaches h r x <-> S x).
Lemma old_ext n h r S S' : old n h r S -> (forall x, S x <-> S' x) -> old n h r S'.
Proof. intros H E x Hx. rewrite (H x Hx). apply E. Qed.
Lemma old_agree n h h' r S : agree h h' r -> old n h r S -> old n h' r S.
Proof. intros A O x Hx. rewrite (reaches_agree h h' r x A). now apply O. Qed.
Lemma old_parts n h r o S : nth_error h r = Some o -> (n <= r)%nat ->
  (forall x, (x < n)%nat -> ((exists p, In p (parts o) /\ reaches h p x) <-> S x)) -> old n h r S.
Proof. intros E N P x Hx. rewrite (reaches_parts _ _ _ _ E). rewrite <- (P x Hx). split; [intros [->|H]; [lia|exact H]|auto]. Qed.

Record is_cmd (h h' : Store) (c : Ref) (v : Command) (S : Ref -> Prop) : Prop :=
  { ic_val : the_command h' c = Some v; ic_old : old (length h) h' c S; ic_keep : keep (length h) h h'; ic_new : (length h <= c)%nat }.

Lemma all_some_app {A} (l l' : list (option A)) v v' : all_some l = Some v -> all_some l' = Some v' -> all_some (l ++ l') = Some (v ++ v').
Proof.
  revert v. induction l as [|[x|] l IH]; cbn; intros v H H'; [now injection H as <-| |discriminate].
  destruct (all_some l) as [w|]; [|discriminate]. injection H as <-. now rewrite (IH _ eq_refl H').
Qed.

Lemma is_cmd_keep h h1 h2 c v S : is_cmd h h1 c v S -> keep (length h1) h1 h2 -> is_cmd h h2 c v S.
Proof.
  intros [V O K N] K2.
  assert (A : agree h1 h2 c). { intros x R. apply K2. eapply command_valid; eauto. }
  split; [now rewrite (command_agree _ _ _ A)|now apply (old_agree _ h1)| |exact N].
  eapply keep_trans; [exact K|]. destruct K2 as [K2 K2']. split; [lia|]. intros r Hr. apply K2'. destruct K; lia.
Qed.

(** adding an action *)
Lemma is_cmd_append h h1 c v S a w T : is_cmd h h1 c v S -> the_action h1 a = Some w -> old (length h) h1 a T ->
  exists h2, append_action h1 c a = Ok h2 /\ is_cmd h h2 c (add_action v w) (fun x => S x \/ T x).
Proof.
  intros [V O K N] W OA. unfold append_action. unfold the_command in V.
  destruct (nth_error h1 c) as [[]|] eqn:E; try discriminate V.
  destruct (all_some (map (the_action h1) actions)) as [acts|] eqn:AS; [|discriminate]. injection V as <-.
  eexists; split; [reflexivity|]. set (h2 := put_at h1 c (OCmd (actions ++ [a]) rest)).
  assert (L : le h1 h2) by (eapply le_cmd, E). pose proof (nth_lt _ _ _ E) as Lc.
  assert (E2 : nth_error h2 c = Some (OCmd (actions ++ [a]) rest)) by (now apply put_at_same).
  split; [| | |exact N].
  - unfold the_command. rewrite E2, map_app.
    rewrite (all_some_app _ _ acts [w]); [reflexivity|eapply the_actions_le; eauto|].
    cbn [map all_some]. now rewrite (the_action_le _ _ L _ _ W).
  - apply (old_parts _ _ _ _ _ E2 N). intros x Hx. cbn [parts].
    assert (AG : forall p, In p actions -> agree h1 h2 p).
    { intros p I. destruct (all_some_in _ _ (the_action h1 p) AS) as [y Y]; [now apply in_map|].
      eapply (agree_valid the_action); [apply action_valid|exact Y|exact L]. }
    assert (AA : agree h1 h2 a) by (eapply (agree_valid the_action); [apply action_valid|exact W|exact L]).
    rewrite <- (O x Hx), <- (OA x Hx), (reaches_parts _ _ _ _ E). cbn [parts]. split.
    + intros (p&I&R). apply in_app_or in I. destruct I as [I|[<-|[]]].
      * left. right. exists p. split; [exact I|]. now apply (reaches_agree h1 h2 p x (AG _ I)).
      * right. now apply (reaches_agree h1 h2 a x AA).
    + intros [[->|(p&I&R)]|R]; [lia| |].
      * exists p. split; [apply in_or_app; now left|]. now apply (reaches_agree h1 h2 p x (AG _ I)).
      * exists a. split; [apply in_or_app; right; now left|]. now apply (reaches_agree h1 h2 a x AA).
  - eapply keep_trans; [exact K|]. apply keep_put_at, N.
Qed.

(** a new action over a valued operation *)
Lemma new_regular h o v : the_op h o = Some v ->
  new_action h (Regular false false) o = Ok (h ++ [OAct (Regular false false) o], length h).
Proof. intros V. unfold new_action. rewrite V. reflexivity. Qed.
Lemma action_value h k o v : the_op h o = Some v -> the_action (h ++ [OAct k o]) (length h) = Some (mkAction k v).
Proof.
  intros V. unfold the_action. rewrite nth_new. now rewrite (the_op_le h _ (le_put h _) _ _ V).
Qed.
(** reach of a new object *)
Lemma old_new n h o (S : Ref -> Prop) : (n <= length h)%nat ->
  (forall p, In p (parts o) -> exists T, old n (h ++ [o]) p T /\ forall x, (x < n)%nat -> T x -> S x) ->
  (forall x, (x < n)%nat -> S x -> exists p, In p (parts o) /\ reaches (h ++ [o]) p x) ->
  old n (h ++ [o]) (length h) S.
Proof.
  intros N P1 P2. apply (old_parts _ _ _ o); [apply nth_new|exact N|]. intros x Hx. split.
  - intros (p&I&R). destruct (P1 p I) as (T&OT&TS). apply (TS x Hx). now apply OT.
  - apply (P2 x Hx).
Qed.
Lemma old_one n h o p S : (n <= length h)%nat -> parts o = [p] -> agree h (h ++ [o]) p -> old n h p S -> old n (h ++ [o]) (length h) S.
Proof.
  intros N P A O. pose proof (old_agree _ _ _ _ _ A O) as O'. apply old_new; [exact N| |].
  - rewrite P. intros q [<-|[]]. exists S. split; auto.
  - intros x Hx Sx. exists p. rewrite P. split; [now left|]. now apply O'.
Qed.
Lemma old_none n h o : (n <= length h)%nat -> parts o = [] -> old n (h ++ [o]) (length h) (fun _ => False).
Proof. intros N P. apply old_new; [exact N| |]; rewrite P; [intros ? []|intros ? _ []]. Qed.

(** ** the forward action *)
Lemma forward_core h h1 c v S t cf cv T (HI : the_iface (h1 ++ [OIface t cf]) (length h1) = Some (mkIC t cv))
  (HO : old (length h) (h1 ++ [OIface t cf]) (length h1) T) :
  is_cmd h h1 c v S ->
  exists h2, (let (h, i) := put h1 (OIface t cf) in
    let! (h, a) := new_action h (Regular false false) (RForward i) in append_action h c a) = Ok h2
  /\ is_cmd h h2 c (add_action v (mkAction (Regular false false) (Forward (mkIC t cv)))) (fun x => S x \/ T x).
Proof.
  intros C. cbn [put]. set (h2 := h1 ++ [OIface t cf]) in *.
  assert (V : the_op h2 (RForward (length h1)) = Some (Forward (mkIC t cv))) by (cbn [the_op]; now rewrite HI).
  rewrite (new_regular _ _ _ V). cbn [rbind].
  assert (Lh : (length h <= length h2)%nat).
  { destruct C as [_ _ [K _] _]. unfold h2. rewrite app_length. lia. }
  eapply is_cmd_append.
  - eapply is_cmd_keep; [exact C|]. unfold h2. rewrite <- app_assoc. apply keep_app. lia.
  - apply (action_value _ _ _ _ V).
  - apply (old_one _ _ _ (length h1)); [exact Lh|reflexivity| |exact HO].
    eapply (agree_valid the_iface); [apply iface_valid|exact HI|apply le_put].
Qed.
Lemma conf_still h h' r c : keep (length h) h h' -> the_conf h r = Some c -> the_conf h' r = Some c /\ agree h h' r.
Proof.
  intros K V. split; [apply (the_conf_le _ _ (le_keep _ _ K) _ _ V)|].
  eapply (agree_valid the_conf); [apply conf_valid|exact V|now apply le_keep].
Qed.
Lemma old_still n h h' r : agree h h' r -> old n h' r (reaches h r).
Proof. intros A x _. now apply reaches_agree. Qed.
Lemma iface_value h1 t r c : the_conf h1 r = Some c -> the_iface (h1 ++ [OIface t (Some r)]) (length h1) = Some (mkIC t (Some c)).
Proof. intros V. unfold the_iface. rewrite nth_new. now rewrite (the_conf_le _ _ (le_put h1 _) _ _ V). Qed.

Lemma forward_spec h h1 c v S t conf cv : is_cmd h h1 c v S -> conf_arg h t conf cv ->
  match forward_to h1 c t conf with
  | Ok h2 => exists v', add_forward_action v t cv = Ok v' /\ is_cmd h h2 c v' (fun x => S x \/ conf_parts h t conf x)
  | Err e => add_forward_action v t cv = Err e
  end.
Proof.
  intros C A. pose proof (ic_keep _ _ _ _ _ C) as K.
  assert (Lh : (length h <= length h1)%nat) by apply K.
  assert (SOME : forall r cc, the_conf h r = Some cc ->
     exists h2, (let (h, i) := put h1 (OIface t (Some r)) in
       let! (h, a) := new_action h (Regular false false) (RForward i) in append_action h c a) = Ok h2
     /\ is_cmd h h2 c (add_action v (mkAction (Regular false false) (Forward (mkIC t (Some cc))))) (fun x => S x \/ reaches h r x)).
  { intros r cc V. destruct (conf_still _ _ _ _ K V) as [V1 A1]. apply forward_core; [now apply iface_value| |exact C].
    apply (old_one _ _ _ r); [exact Lh|reflexivity| |now apply old_still].
    eapply (agree_valid the_conf); [apply conf_valid|exact V1|apply le_put]. }
  assert (NONE : exists h2, (let (h, i) := put h1 (OIface t None) in
       let! (h, a) := new_action h (Regular false false) (RForward i) in append_action h c a) = Ok h2
     /\ is_cmd h h2 c (add_action v (mkAction (Regular false false) (Forward (mkIC t None)))) (fun x => S x \/ False)).
  { apply forward_core; [unfold the_iface; now rewrite nth_new|now apply old_none|exact C]. }
  unfold forward_to. destruct t.
  - destruct conf as [r|]; cbn in A.
    + destruct A as (cc&_&->). reflexivity.
    + subst cv. exists v. split; [reflexivity|]. destruct C as [V O K' N]. split; auto.
      eapply old_ext; [exact O|]. intros x; cbn; tauto.
  - destruct NONE as (h2&->&I2). eexists. split; [reflexivity|]. destruct I2 as [V O K' N]. split; auto.
  - destruct conf as [r|]; cbn in A.
    + destruct A as (cc&V&->). destruct (SOME r cc V) as (h2&->&I2). eexists. split; [reflexivity|exact I2].
    + subst cv. destruct NONE as (h2&->&I2). eexists. split; [reflexivity|exact I2].
  - destruct conf as [r|]; cbn in A.
    + destruct A as (cc&V&->). destruct (SOME r cc V) as (h2&->&I2). eexists. split; [reflexivity|exact I2].
    + subst cv. destruct NONE as (h2&->&I2). eexists. split; [reflexivity|exact I2].
  - destruct conf as [r|]; cbn in A.
    + destruct A as (cc&V&->). destruct (SOME r cc V) as (h2&->&I2). eexists. split; [reflexivity|exact I2].
    + destruct A as (cc&(Q&D&AD)&->). unfold new_conf. cbn [given].
      pose proof (le_keep _ _ K) as L.
      pose proof (the_qos_le _ _ L _ _ Q) as Q1. pose proof (the_ct_le _ _ L _ _ D) as D1. pose proof (the_addr_le _ _ L _ _ AD) as AD1.
      rewrite Q1, D1, AD1. cbn [of_class rbind put].
      set (h3 := h1 ++ [OConf DEFAULT_QOS DEFAULT_DORM_TO DEFAULT_ADDRESSEE]).
      assert (V3 : the_conf h3 (length h1) = Some (CfgD7 cc)).
      { unfold the_conf, h3. rewrite nth_new. rewrite (the_qos_le _ _ (le_put h1 _) _ _ Q1), (the_ct_le _ _ (le_put h1 _) _ _ D1), (the_addr_le _ _ (le_put h1 _) _ _ AD1). now destruct cc. }
      assert (K3 : keep (length h1) h1 h3) by (apply keep_app; lia).
      assert (L3 : (length h <= length h3)%nat) by (unfold h3; rewrite app_length; lia).
      assert (B : forall r w, the_qos h r = Some w \/ (exists w', the_ct h r = Some w') \/ (exists w', the_addr h r = Some w') -> old (length h) h3 r (fun x => r = x)).
      { intros r w X. assert (A3 : agree h h3 r).
        { assert (L' : le h h3) by (eapply le_trans; [exact L|apply le_put]).
          destruct X as [X|[[w' X]|[w' X]]]; [eapply (agree_valid the_qos); [apply qos_valid|exact X|exact L']|eapply (agree_valid the_ct); [apply ct_valid|exact X|exact L']|eapply (agree_valid the_addr); [apply addr_valid|exact X|exact L']]. }
        eapply old_ext; [apply (old_still _ _ _ _ A3)|]. intros x.
        assert (P : exists o, nth_error h r = Some o /\ parts o = []).
        { unfold the_qos, the_ct, the_addr in X. destruct (nth_error h r) as [[]|]; try (eexists; split; reflexivity); exfalso; destruct X as [X|[[? X]|[? X]]]; discriminate. }
        destruct P as (o&Eo&Po). rewrite (reaches_parts _ _ _ _ Eo), Po. split; [intros [->|(p&[]&_)]; reflexivity|auto]. }
      assert (O3 : old (length h) h3 (length h1) (fun x => In x [DEFAULT_QOS; DEFAULT_DORM_TO; DEFAULT_ADDRESSEE])).
      { apply old_new; [exact Lh| |]; cbn [parts].
        - intros p I. exists (fun x => p = x). split; [|intros x _ <-; exact I].
          destruct I as [<-|[<-|[<-|[]]]]; eapply B; [left; exact Q|right; left; eauto|right; right; eauto].
        - intros x Hx I. exists x. split; [|constructor]. exact I. }
      assert (C3 : is_cmd h h3 c v S) by (eapply is_cmd_keep; eauto).
      edestruct (forward_core h h3 c v S IF_D7ASP (Some (length h1)) (Some (CfgD7 cc)) (fun x => In x [DEFAULT_QOS; DEFAULT_DORM_TO; DEFAULT_ADDRESSEE])) as (h2&E2&I2).
      { now apply iface_value. }
      { apply (old_one _ _ _ (length h1)); [exact L3|reflexivity| |exact O3].
        eapply (agree_valid the_conf); [apply conf_valid|exact V3|apply le_put]. }
      { exact C3. }
      match goal with |- match ?X with _ => _ end => replace X with (Ok h2 : res Store) by (symmetry; exact E2) end.
      eexists. split; [reflexivity|exact I2].
  Unshelve. all: exact qos_default.
Qed.
