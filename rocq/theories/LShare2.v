From Coq Require Import Lia.
From Verif Require Import MBase MCt MSp MOperands MAlp SShare LShare.

Lemma reaches_inv h r n : reaches h r n <-> r = n \/ exists o p, nth_error h r = Some o /\ In p (parts o) /\ reaches h p n.
Proof.
  split.
  - intros R; destruct R as [r|r o p n E I R]; [now left|right; eauto].
  - intros [->|(o&p&E&I&R)]; [constructor|econstructor 2; eauto].
Qed.
Lemma reaches_parts h r n o : nth_error h r = Some o -> (reaches h r n <-> r = n \/ exists p, In p (parts o) /\ reaches h p n).
Proof.
  intros E. rewrite reaches_inv. split.
  - intros [->|(o'&p&E'&I&R)]; [now left|right]. rewrite E in E'. injection E' as <-. eauto.
  - intros [->|(p&I&R)]; [now left|right]. eauto.
Qed.

Section Visible.
  Context (h : Store) (n : Ref) (o o' : Obj) (En : nth_error h n = Some o) (At : atomic o = true)
    (Cl : class_of o' = class_of o) (Ne : o' <> o).
  Let h' := put_at h n o'.
  Lemma here : nth_error h' n = Some o'.
  Proof. apply put_at_same. eapply nth_lt, En. Qed.
  Lemma there r x : nth_error h r = Some x -> atomic x = false -> nth_error h' r = Some x /\ r <> n.
  Proof.
    intros E A. assert (N : r <> n) by (intros ->; rewrite En in E; injection E as <-; rewrite At in A; discriminate).
    split; [|exact N]. unfold h'. rewrite put_at_other; auto.
  Qed.
  Definition follows {A} (g : Store -> Ref -> option A) : Prop :=
    forall r v, g h r = Some v -> exists v', g h' r = Some v' /\ (v' = v <-> ~ reaches h r n).
  Ltac leaf :=
    let RX := fresh "RX" in let r := fresh "r" in let v := fresh "v" in let H := fresh "H" in let E := fresh "E" in let N := fresh "N" in
    intros r v H; destruct (nth_error h r) as [[]|] eqn:E; try discriminate H; injection H as <-;
    pose proof (reaches_parts _ _ n _ E) as RX; cbn [parts In] in RX;
    destruct (Nat.eq_dec r n) as [->|N];
    [rewrite here; rewrite En in E; injection E as ->; destruct o'; try discriminate Cl; eexists; split; [reflexivity|]; rewrite RX;
     split; [intros ->; now destruct Ne|intros X; exfalso; apply X; now left]
    |unfold h'; rewrite put_at_other by auto; rewrite E; eexists; split; [reflexivity|]; rewrite RX;
     split; [intros _ [X|(p&[]&_)]; auto|auto]].
  Lemma ct_follows : follows the_ct. Proof. unfold follows, the_ct. leaf. Qed.
  Lemma qos_follows : follows the_qos. Proof. unfold follows, the_qos. leaf. Qed.
  Lemma addr_follows : follows the_addr. Proof. unfold follows, the_addr. leaf. Qed.
  Lemma len_follows : follows the_len. Proof. unfold follows, the_len. leaf. Qed.
  Lemma bytes_follows : follows the_bytes. Proof. unfold follows, the_bytes. leaf. Qed.
  Ltac reach E RX := pose proof (reaches_parts _ _ n _ E) as RX; cbn [parts op_parts In] in RX.
  Lemma off_follows : follows the_off.
  Proof.
    unfold follows, the_off. intros r v H. destruct (nth_error h r) as [[]|] eqn:E; try discriminate H.
    destruct (there _ _ E eq_refl) as [E' N]. rewrite E'. reach E RX.
    destruct (the_len h offset) as [l|] eqn:E1; [|discriminate]. injection H as <-.
    destruct (len_follows _ _ E1) as (l'&->&F1). eexists; split; [reflexivity|]. rewrite RX. split.
    - intros X. injection X as ->. apply proj1 in F1. specialize (F1 eq_refl). intros [?|(p&[<-|[]]&R)]; auto.
    - intros X. f_equal. apply F1. intros R. apply X. right. eauto.
  Qed.
  Lemma conf_follows : follows the_conf.
  Proof.
    unfold follows, the_conf. intros r v H. destruct (nth_error h r) as [[]|] eqn:E; try discriminate H.
    - destruct (there _ _ E eq_refl) as [E' N]. rewrite E'. reach E RX.
      destruct (the_qos h qos) as [q|] eqn:E1; [|discriminate]. destruct (the_ct h dorm_to) as [d|] eqn:E2; [|discriminate].
      destruct (the_addr h addressee) as [a|] eqn:E3; [|discriminate]. injection H as <-.
      destruct (qos_follows _ _ E1) as (q'&->&F1). destruct (ct_follows _ _ E2) as (d'&->&F2).
      destruct (addr_follows _ _ E3) as (a'&->&F3). eexists; split; [reflexivity|]. rewrite RX. split.
      + intros X. injection X as -> -> ->. apply proj1 in F1, F2, F3. specialize (F1 eq_refl). specialize (F2 eq_refl). specialize (F3 eq_refl).
        intros [?|(p&[<-|[<-|[<-|[]]]]&R)]; auto.
      + intros X. do 2 f_equal; [apply F1|apply F2|apply F3]; intros R; apply X; right; eexists; (split; [|exact R]); cbn; tauto.
    - injection H as <-. pose proof (reaches_parts _ _ n _ E) as RX; cbn [parts In] in RX.
      destruct (Nat.eq_dec r n) as [->|N].
      + rewrite here. rewrite En in E. injection E as ->. destruct o'; try discriminate Cl. eexists; split; [reflexivity|]. rewrite RX.
        split; [intros ->; now destruct Ne|intros X; exfalso; apply X; now left].
      + unfold h'. rewrite put_at_other by auto. rewrite E. eexists; split; [reflexivity|]. rewrite RX.
        split; [intros _ [X|(p&[]&_)]; auto|auto].
  Qed.
  Lemma data_follows : follows the_data.
  Proof.
    unfold follows, the_data. intros r v H. destruct (nth_error h r) as [[]|] eqn:E; try discriminate H.
    destruct (there _ _ E eq_refl) as [E' N]. rewrite E'. reach E RX.
    destruct (the_off h offset) as [q|] eqn:E1; [|discriminate]. destruct (the_len h length) as [d|] eqn:E2; [|discriminate].
    destruct (the_bytes h data) as [a|] eqn:E3; [|discriminate]. injection H as <-.
    destruct (off_follows _ _ E1) as (q'&->&F1). destruct (len_follows _ _ E2) as (d'&->&F2).
    destruct (bytes_follows _ _ E3) as (a'&->&F3). eexists; split; [reflexivity|]. rewrite RX. split.
    + intros X. injection X as -> -> ->. apply proj1 in F1, F2, F3. specialize (F1 eq_refl). specialize (F2 eq_refl). specialize (F3 eq_refl).
      intros [?|(p&[<-|[<-|[<-|[]]]]&R)]; auto.
    + intros X. f_equal; [apply F1|apply F2|apply F3]; intros R; apply X; right; eexists; (split; [|exact R]); cbn; tauto.
  Qed.
  Lemma req_follows : follows the_req.
  Proof.
    unfold follows, the_req. intros r v H. destruct (nth_error h r) as [[]|] eqn:E; try discriminate H.
    destruct (there _ _ E eq_refl) as [E' N]. rewrite E'. reach E RX.
    destruct (the_off h offset) as [q|] eqn:E1; [|discriminate]. destruct (the_len h length) as [d|] eqn:E2; [|discriminate].
    injection H as <-.
    destruct (off_follows _ _ E1) as (q'&->&F1). destruct (len_follows _ _ E2) as (d'&->&F2).
    eexists; split; [reflexivity|]. rewrite RX. split.
    + intros X. injection X as -> ->. apply proj1 in F1, F2. specialize (F1 eq_refl). specialize (F2 eq_refl).
      intros [?|(p&[<-|[<-|[]]]&R)]; auto.
    + intros X. f_equal; [apply F1|apply F2]; intros R; apply X; right; eexists; (split; [|exact R]); cbn; tauto.
  Qed.
  Lemma iface_follows : follows the_iface.
  Proof.
    unfold follows, the_iface. intros r v H. destruct (nth_error h r) as [[]|] eqn:E; try discriminate H.
    destruct (there _ _ E eq_refl) as [E' N]. rewrite E'. reach E RX. destruct conf as [c|].
    - destruct (the_conf h c) as [q|] eqn:E1; [|discriminate]. injection H as <-.
      destruct (conf_follows _ _ E1) as (q'&->&F1). eexists; split; [reflexivity|]. rewrite RX. split.
      + intros X. injection X as ->. apply proj1 in F1. specialize (F1 eq_refl). intros [?|(p&[<-|[]]&R)]; auto.
      + intros X. do 2 f_equal. apply F1. intros R. apply X. right. eexists. split; [|exact R]. now left.
    - injection H as <-. eexists; split; [reflexivity|]. rewrite RX. split; [|auto]. intros _ [?|(p&[]&_)]; auto.
  Qed.
  Lemma action_follows : follows the_action.
  Proof.
    unfold follows, the_action. intros r v H. destruct (nth_error h r) as [[]|] eqn:E; try discriminate H.
    destruct (there _ _ E eq_refl) as [E' N]. rewrite E'. reach E RX. destruct o0; cbn [the_op op_parts In] in *.
    - destruct (the_req h r0) as [q|] eqn:E1; [|discriminate]. injection H as <-.
      destruct (req_follows _ _ E1) as (q'&->&F1). eexists; split; [reflexivity|]. rewrite RX. split.
      + intros X. injection X as ->. apply proj1 in F1. specialize (F1 eq_refl). intros [?|(p&[<-|[]]&R)]; auto.
      + intros X. do 2 f_equal. apply F1. intros R. apply X. right. eexists. split; [|exact R]. now left.
    - destruct (the_data h r0) as [q|] eqn:E1; [|discriminate]. injection H as <-.
      destruct (data_follows _ _ E1) as (q'&->&F1). eexists; split; [reflexivity|]. rewrite RX. split.
      + intros X. injection X as ->. apply proj1 in F1. specialize (F1 eq_refl). intros [?|(p&[<-|[]]&R)]; auto.
      + intros X. do 2 f_equal. apply F1. intros R. apply X. right. eexists. split; [|exact R]. now left.
    - destruct (the_data h r0) as [q|] eqn:E1; [|discriminate]. injection H as <-.
      destruct (data_follows _ _ E1) as (q'&->&F1). eexists; split; [reflexivity|]. rewrite RX. split.
      + intros X. injection X as ->. apply proj1 in F1. specialize (F1 eq_refl). intros [?|(p&[<-|[]]&R)]; auto.
      + intros X. do 2 f_equal. apply F1. intros R. apply X. right. eexists. split; [|exact R]. now left.
    - destruct (the_iface h r0) as [q|] eqn:E1; [|discriminate]. injection H as <-.
      destruct (iface_follows _ _ E1) as (q'&->&F1). eexists; split; [reflexivity|]. rewrite RX. split.
      + intros X. injection X as ->. apply proj1 in F1. specialize (F1 eq_refl). intros [?|(p&[<-|[]]&R)]; auto.
      + intros X. do 2 f_equal. apply F1. intros R. apply X. right. eexists. split; [|exact R]. now left.
    - eexists; split; [exact H|]. rewrite RX. split; [|auto]. intros _ [?|(p&[]&_)]; auto.
  Qed.
  Lemma actions_follow l v : all_some (map (the_action h) l) = Some v ->
    exists v', all_some (map (the_action h') l) = Some v' /\ (v' = v <-> ~ exists p, In p l /\ reaches h p n).
  Proof.
    revert v. induction l as [|r l IH]; intros v; cbn [map all_some In].
    - intros H; injection H as <-. eexists; split; [reflexivity|]. split; [|auto]. intros _ (p&[]&_).
    - destruct (the_action h r) as [a|] eqn:E1; [|discriminate].
      destruct (all_some (map (the_action h) l)) as [q|]; [|discriminate]. intros H; injection H as <-.
      destruct (action_follows _ _ E1) as (a'&->&F1). destruct (IH _ eq_refl) as (q'&->&F2).
      eexists; split; [reflexivity|]. split.
      + intros X. injection X as -> ->. apply proj1 in F1, F2. specialize (F1 eq_refl). specialize (F2 eq_refl).
        intros (p&[<-|I]&R); [auto|]. apply F2. eauto.
      + intros X. f_equal; [apply F1|apply F2]; [intros R; apply X; eauto|intros (p&I&R); apply X; eauto].
  Qed.
  Lemma command_follows : follows the_command.
  Proof.
    unfold follows, the_command. intros r v H. destruct (nth_error h r) as [[]|] eqn:E; try discriminate H.
    destruct (there _ _ E eq_refl) as [E' N]. rewrite E'. reach E RX.
    destruct (all_some (map (the_action h) actions)) as [q|] eqn:E1; [|discriminate]. injection H as <-.
    destruct (actions_follow _ _ E1) as (q'&->&F1). eexists; split; [reflexivity|]. rewrite RX. split.
    - intros X. unfold with_actions in X. injection X as ->. apply proj1 in F1. specialize (F1 eq_refl). intros [?|R]; auto.
    - intros X. unfold with_actions. f_equal. apply F1. intros R. apply X. now right.
  Qed.
End Visible.

(** ** what a command reaches exists *)
Section Valid.
  Context (h : Store).
  Definition valid {A} (g : Store -> Ref -> option A) : Prop :=
    forall r v n, g h r = Some v -> reaches h r n -> exists o, nth_error h n = Some o /\ class_of o <> 12.
  Ltac start r H R E := intros r ? n H R; destruct (nth_error h r) as [[]|] eqn:E; try discriminate H;
    rewrite (reaches_parts _ _ _ _ E) in R; cbn [parts op_parts In] in R.
  Ltac leaf := let r := fresh in let H := fresh in let R := fresh in let E := fresh in start r H R E; destruct R as [<-|(?&[]&_)]; rewrite E; eexists; (split; [reflexivity|discriminate]).
  Lemma ct_valid : valid the_ct. Proof. unfold valid, the_ct. leaf. Qed.
  Lemma qos_valid : valid the_qos. Proof. unfold valid, the_qos. leaf. Qed.
  Lemma addr_valid : valid the_addr. Proof. unfold valid, the_addr. leaf. Qed.
  Lemma len_valid : valid the_len. Proof. unfold valid, the_len. leaf. Qed.
  Lemma bytes_valid : valid the_bytes. Proof. unfold valid, the_bytes. leaf. Qed.
  Ltac some := match goal with H : context [match ?g h ?r with Some _ => _ | None => None end] |- _ => destruct (g h r) eqn:?; [|discriminate H] 
    | H : option_map _ (?g h ?r) = Some _ |- _ => destruct (g h r) eqn:?; [|discriminate H] end.
  Lemma off_valid : valid the_off.
  Proof. unfold valid, the_off. start r H R E. some. destruct R as [<-|(p&[<-|[]]&R)]; try (rewrite E; eexists; split; [reflexivity|discriminate]). eapply len_valid; eauto. Qed.
  Lemma conf_valid : valid the_conf.
  Proof.
    unfold valid, the_conf. start r H R E; [do 3 some|]; [destruct R as [<-|(p&[<-|[<-|[<-|[]]]]&R)]; try (rewrite E; eexists; split; [reflexivity|discriminate])|destruct R as [<-|(p&[]&_)]; try (rewrite E; eexists; split; [reflexivity|discriminate])];
      [eapply qos_valid|eapply ct_valid|eapply addr_valid]; eauto.
  Qed.
  Lemma data_valid : valid the_data.
  Proof.
    unfold valid, the_data. start r H R E. do 3 some. destruct R as [<-|(p&[<-|[<-|[<-|[]]]]&R)]; try (rewrite E; eexists; split; [reflexivity|discriminate]);
      [eapply off_valid|eapply len_valid|eapply bytes_valid]; eauto.
  Qed.
  Lemma req_valid : valid the_req.
  Proof. unfold valid, the_req. start r H R E. do 2 some. destruct R as [<-|(p&[<-|[<-|[]]]&R)]; try (rewrite E; eexists; split; [reflexivity|discriminate]); [eapply off_valid|eapply len_valid]; eauto. Qed.
  Lemma iface_valid : valid the_iface.
  Proof.
    unfold valid, the_iface. start r H R E. destruct conf as [c|]; [some|]; [destruct R as [<-|(p&[<-|[]]&R)]; try (rewrite E; eexists; split; [reflexivity|discriminate])|destruct R as [<-|(p&[]&_)]; try (rewrite E; eexists; split; [reflexivity|discriminate])].
    eapply conf_valid; eauto.
  Qed.
  Lemma action_valid : valid the_action.
  Proof.
    unfold valid, the_action. start r H R E. destruct R as [<-|(p&I&R)]; try (rewrite E; eexists; split; [reflexivity|discriminate]). destruct o; cbn [the_op op_parts In] in *.
    - destruct I as [<-|[]]. destruct (the_req h r0) eqn:E1; [|discriminate]. eapply req_valid; eauto.
    - destruct I as [<-|[]]. destruct (the_data h r0) eqn:E1; [|discriminate]. eapply data_valid; eauto.
    - destruct I as [<-|[]]. destruct (the_data h r0) eqn:E1; [|discriminate]. eapply data_valid; eauto.
    - destruct I as [<-|[]]. destruct (the_iface h r0) eqn:E1; [|discriminate]. eapply iface_valid; eauto.
    - destruct I.
  Qed.
  Lemma all_some_in {A} (l : list (option A)) v x : all_some l = Some v -> In x l -> exists y, x = Some y.
  Proof.
    revert v. induction l as [|[y|] l IH]; cbn; intros v H I; [destruct I| |discriminate].
    destruct (all_some l); [|discriminate]. destruct I as [<-|I]; [eauto|]. eapply IH; eauto.
  Qed.
  Lemma command_valid r v n : the_command h r = Some v -> reaches h r n -> (n < length h)%nat.
  Proof.
    unfold the_command. intros H R. destruct (nth_error h r) as [[]|] eqn:E; try discriminate H.
    rewrite (reaches_parts _ _ _ _ E) in R; cbn [parts] in R. destruct (all_some _) as [q|] eqn:E1; [|discriminate].
    destruct R as [<-|(p&I&R)]; [eapply nth_lt, E|]. destruct (all_some_in _ _ (the_action h p) E1) as [y Y]; [now apply in_map|].
    destruct (action_valid _ _ _ Y R) as (o&O&_). eapply nth_lt, O.
  Qed.
End Valid.

Theorem command_unaffected h l c v : the_command h c = Some v ->
  (forall k n, In k l -> target k = Some n -> ~ reaches h c n) ->
  the_command (program h l) c = Some v /\ forall n, reaches (program h l) c n <-> reaches h c n.
Proof.
  intros V T. assert (A : agree h (program h l) c).
  { intros n R. apply program_keeps; [eapply command_valid; eauto|]. intros k I X. exact (T _ _ I X R). }
  split; [now rewrite (command_agree _ _ _ A)|]. intros n. now apply reaches_agree.
Qed.
