From Coq Require Import Lia.
From Verif Require Import MBase MCt MSp MOperands MAlp SShare.

(** ** lists *)
Lemma put_at_length h r o : length (put_at h r o) = length h.
Proof. revert r; induction h as [|x h IH]; intros [|r]; cbn; auto. Qed.
Lemma put_at_same h r o : (r < length h)%nat -> nth_error (put_at h r o) r = Some o.
Proof. revert r; induction h as [|x h IH]; intros [|r] H; cbn in *; try lia; auto. apply IH; lia. Qed.
Lemma put_at_other h r o n : r <> n -> nth_error (put_at h r o) n = nth_error h n.
Proof. revert r n; induction h as [|x h IH]; intros [|r] [|n] H; cbn; try congruence; auto. Qed.
Lemma nth_lt {A} (h : list A) r o : nth_error h r = Some o -> (r < length h)%nat.
Proof. intros H; apply nth_error_Some; congruence. Qed.
Lemma nth_new {A} (h : list A) o : nth_error (h ++ [o]) (length h) = Some o.
Proof. rewrite nth_error_app2 by lia. now rewrite Nat.sub_diag. Qed.
Lemma nth_old {A} (h l : list A) r : (r < length h)%nat -> nth_error (h ++ l) r = nth_error h r.
Proof. intros; now apply nth_error_app1. Qed.

(** ** stores that agree on what is not a command *)
Definition le (h h' : Store) : Prop := forall r o, nth_error h r = Some o -> class_of o <> 12 -> nth_error h' r = Some o.
Lemma le_refl h : le h h. Proof. intros r o H _; exact H. Qed.
Lemma le_trans a b c : le a b -> le b c -> le a c.
Proof. intros H1 H2 r o H C; eauto. Qed.
Lemma le_put h l : le h (h ++ l).
Proof. intros r o H _. rewrite nth_old; [exact H|eapply nth_lt, H]. Qed.
Lemma le_cmd h c l rest l' : nth_error h c = Some (OCmd l rest) -> le h (put_at h c (OCmd l' rest)).
Proof.
  intros H r o Hr C. rewrite put_at_other; [exact Hr|]. intros ->. rewrite Hr in H. injection H as ->. now apply C.
Qed.

Ltac nth_step E :=
  match goal with
  | H : context [nth_error ?h ?r] |- _ =>
      match type of H with
      | _ = Some _ => destruct (nth_error h r) as [[]|] eqn:E; try discriminate H
      end
  end.

Section Le.
  Context (h h' : Store) (L : le h h').
  Lemma the_ct_le r v : the_ct h r = Some v -> the_ct h' r = Some v.
  Proof. unfold the_ct. intros H. nth_step E. now rewrite (L _ _ E). Qed.
  Lemma the_qos_le r v : the_qos h r = Some v -> the_qos h' r = Some v.
  Proof. unfold the_qos. intros H. nth_step E. now rewrite (L _ _ E). Qed.
  Lemma the_addr_le r v : the_addr h r = Some v -> the_addr h' r = Some v.
  Proof. unfold the_addr. intros H. nth_step E. now rewrite (L _ _ E). Qed.
  Lemma the_len_le r v : the_len h r = Some v -> the_len h' r = Some v.
  Proof. unfold the_len. intros H. nth_step E. now rewrite (L _ _ E). Qed.
  Lemma the_bytes_le r v : the_bytes h r = Some v -> the_bytes h' r = Some v.
  Proof. unfold the_bytes. intros H. nth_step E. now rewrite (L _ _ E). Qed.
  Lemma the_off_le r v : the_off h r = Some v -> the_off h' r = Some v.
  Proof.
    unfold the_off. intros H. nth_step E. rewrite (L _ _ E) by discriminate.
    destruct (the_len h offset) eqn:E1; [|discriminate]. now rewrite (the_len_le _ _ E1).
  Qed.
  Lemma the_conf_le r v : the_conf h r = Some v -> the_conf h' r = Some v.
  Proof.
    unfold the_conf. intros H. nth_step E; rewrite (L _ _ E) by discriminate; [|exact H].
    destruct (the_qos h qos) eqn:E1; [|discriminate]. destruct (the_ct h dorm_to) eqn:E2; [|discriminate].
    destruct (the_addr h addressee) eqn:E3; [|discriminate].
    now rewrite (the_qos_le _ _ E1), (the_ct_le _ _ E2), (the_addr_le _ _ E3).
  Qed.
  Lemma the_data_le r v : the_data h r = Some v -> the_data h' r = Some v.
  Proof.
    unfold the_data. intros H. nth_step E; rewrite (L _ _ E) by discriminate.
    destruct (the_off h offset) eqn:E1; [|discriminate]. destruct (the_len h length) eqn:E2; [|discriminate].
    destruct (the_bytes h data) eqn:E3; [|discriminate].
    now rewrite (the_off_le _ _ E1), (the_len_le _ _ E2), (the_bytes_le _ _ E3).
  Qed.
  Lemma the_req_le r v : the_req h r = Some v -> the_req h' r = Some v.
  Proof.
    unfold the_req. intros H. nth_step E; rewrite (L _ _ E) by discriminate.
    destruct (the_off h offset) eqn:E1; [|discriminate]. destruct (the_len h length) eqn:E2; [|discriminate].
    now rewrite (the_off_le _ _ E1), (the_len_le _ _ E2).
  Qed.
  Lemma the_iface_le r v : the_iface h r = Some v -> the_iface h' r = Some v.
  Proof.
    unfold the_iface. intros H. nth_step E; rewrite (L _ _ E) by discriminate. destruct conf as [c|]; [|exact H].
    destruct (the_conf h c) eqn:E1; [|discriminate]. now rewrite (the_conf_le _ _ E1).
  Qed.
  Lemma the_op_le o v : the_op h o = Some v -> the_op h' o = Some v.
  Proof.
    destruct o; cbn [the_op]; intros H.
    - destruct (the_req h r) eqn:E; [|discriminate]. now rewrite (the_req_le _ _ E).
    - destruct (the_data h r) eqn:E; [|discriminate]. now rewrite (the_data_le _ _ E).
    - destruct (the_data h r) eqn:E; [|discriminate]. now rewrite (the_data_le _ _ E).
    - destruct (the_iface h r) eqn:E; [|discriminate]. now rewrite (the_iface_le _ _ E).
    - exact H.
  Qed.
  Lemma the_action_le r v : the_action h r = Some v -> the_action h' r = Some v.
  Proof.
    unfold the_action. intros H. nth_step E; rewrite (L _ _ E) by discriminate.
    destruct (the_op h o) eqn:E1; [|discriminate]. now rewrite (the_op_le _ _ E1).
  Qed.
  Lemma the_actions_le l v : all_some (map (the_action h) l) = Some v -> all_some (map (the_action h') l) = Some v.
  Proof.
    revert v. induction l as [|r l IH]; intros v; cbn [map all_some]; [auto|].
    destruct (the_action h r) eqn:E; [|discriminate]. rewrite (the_action_le _ _ E).
    destruct (all_some (map (the_action h) l)); [|discriminate]. now rewrite (IH _ eq_refl).
  Qed.
End Le.

(** ** the same, for what an object reaches *)
Section Agree.
  Context (h h' : Store).
  Definition agree (r : Ref) : Prop := forall n, reaches h r n -> nth_error h' n = nth_error h n.
  Lemma agree_here r : agree r -> nth_error h' r = nth_error h r.
  Proof. intros A; apply A; constructor. Qed.
  Lemma agree_part r o p : agree r -> nth_error h r = Some o -> In p (parts o) -> agree p.
  Proof. intros A E I n Hn. apply A. econstructor 2; eauto. Qed.
  Ltac part E := eapply agree_part; [eassumption|exact E|cbn; tauto].
  Lemma ct_agree r : agree r -> the_ct h' r = the_ct h r.
  Proof. intros A. unfold the_ct. now rewrite (agree_here _ A). Qed.
  Lemma qos_agree r : agree r -> the_qos h' r = the_qos h r.
  Proof. intros A. unfold the_qos. now rewrite (agree_here _ A). Qed.
  Lemma addr_agree r : agree r -> the_addr h' r = the_addr h r.
  Proof. intros A. unfold the_addr. now rewrite (agree_here _ A). Qed.
  Lemma len_agree r : agree r -> the_len h' r = the_len h r.
  Proof. intros A. unfold the_len. now rewrite (agree_here _ A). Qed.
  Lemma bytes_agree r : agree r -> the_bytes h' r = the_bytes h r.
  Proof. intros A. unfold the_bytes. now rewrite (agree_here _ A). Qed.
  Lemma off_agree r : agree r -> the_off h' r = the_off h r.
  Proof.
    intros A. unfold the_off. rewrite (agree_here _ A). destruct (nth_error h r) as [[]|] eqn:E; auto.
    rewrite len_agree; [reflexivity|part E].
  Qed.
  Lemma conf_agree r : agree r -> the_conf h' r = the_conf h r.
  Proof.
    intros A. unfold the_conf. rewrite (agree_here _ A). destruct (nth_error h r) as [[]|] eqn:E; auto.
    rewrite qos_agree, ct_agree, addr_agree; [reflexivity|part E|part E|part E].
  Qed.
  Lemma data_agree r : agree r -> the_data h' r = the_data h r.
  Proof.
    intros A. unfold the_data. rewrite (agree_here _ A). destruct (nth_error h r) as [[]|] eqn:E; auto.
    rewrite off_agree, len_agree, bytes_agree; [reflexivity|part E|part E|part E].
  Qed.
  Lemma req_agree r : agree r -> the_req h' r = the_req h r.
  Proof.
    intros A. unfold the_req. rewrite (agree_here _ A). destruct (nth_error h r) as [[]|] eqn:E; auto.
    rewrite off_agree, len_agree; [reflexivity|part E|part E].
  Qed.
  Lemma iface_agree r : agree r -> the_iface h' r = the_iface h r.
  Proof.
    intros A. unfold the_iface. rewrite (agree_here _ A). destruct (nth_error h r) as [[]|] eqn:E; auto.
    destruct conf as [c|]; [|reflexivity]. rewrite conf_agree; [reflexivity|part E].
  Qed.
  Lemma action_agree r : agree r -> the_action h' r = the_action h r.
  Proof.
    intros A. unfold the_action. rewrite (agree_here _ A). destruct (nth_error h r) as [[]|] eqn:E; auto.
    destruct o; cbn [the_op]; [rewrite req_agree|rewrite data_agree|rewrite data_agree|rewrite iface_agree|]; try reflexivity; part E.
  Qed.
  Lemma command_agree r : agree r -> the_command h' r = the_command h r.
  Proof.
    intros A. unfold the_command. rewrite (agree_here _ A). destruct (nth_error h r) as [[]|] eqn:E; auto.
    replace (map (the_action h') actions) with (map (the_action h) actions); [reflexivity|].
    apply map_ext_in. intros p I. symmetry. apply action_agree. eapply agree_part; [eassumption|exact E|exact I].
  Qed.
  Lemma reaches_agree r n : agree r -> (reaches h' r n <-> reaches h r n).
  Proof.
    intros A. split.
    - intros R. revert A. induction R as [r|r o p n E I R IH]; intros A; [constructor|].
      rewrite (agree_here _ A) in E. econstructor 2; [exact E|exact I|]. apply IH. part E.
    - intros R. revert A. induction R as [r|r o p n E I R IH]; intros A; [constructor|].
      econstructor 2; [rewrite (agree_here _ A); exact E|exact I|]. apply IH. part E.
  Qed.
End Agree.
Lemma agree_trans a b c r : agree a b r -> agree b c r -> agree a c r.
Proof. intros A B n R. rewrite (B n); [now apply A|]. now apply (reaches_agree a b). Qed.

(** ** library calls leave objects alone *)
Definition keep (n : nat) (h h' : Store) : Prop :=
  (length h <= length h')%nat /\ forall r, (r < n)%nat -> nth_error h' r = nth_error h r.
Lemma keep_refl n h : keep n h h. Proof. split; auto. Qed.
Lemma keep_trans n a b c : keep n a b -> keep n b c -> keep n a c.
Proof. intros [H1 H2] [H3 H4]; split; [lia|]. intros r Hr. rewrite H4, H2; auto. Qed.
Lemma keep_app n h l : (n <= length h)%nat -> keep n h (h ++ l).
Proof. intros N. split; [rewrite app_length; lia|]. intros r Hr. apply nth_old; lia. Qed.
Lemma keep_put_at n h r o : (n <= r)%nat -> keep n h (put_at h r o).
Proof. intros N. split; [rewrite put_at_length; lia|]. intros x Hx. apply put_at_other; lia. Qed.
Definition mkeep (n : nat) (h : Store) (m : made) : Prop :=
  match m with Ok (h', r) => keep n h h' /\ (length h <= r)%nat /\ (r < length h')%nat | Err _ => True end.
Ltac rb := match goal with |- context [rbind ?m _] => destruct m as [?|?] eqn:?; cbn [rbind]; [|exact I] end.
Lemma mkeep_put n h o : (n <= length h)%nat -> mkeep n h (Ok (put h o)).
Proof. intros N. cbn. split; [now apply keep_app|]. rewrite app_length; cbn; lia. Qed.
Lemma new_length_keep n h v : (n <= length h)%nat -> mkeep n h (new_length h v).
Proof. intros N. unfold new_length. rb. now apply mkeep_put. Qed.
Lemma new_offset_keep n h i o : (n <= length h)%nat -> mkeep n h (new_offset h i o).
Proof. intros N. unfold new_offset. do 2 rb. now apply mkeep_put. Qed.
Lemma mkeep_put2 n h o o' : (n <= length h)%nat -> mkeep n h (Ok (put (fst (put h o)) o')).
Proof.
  intros N. cbn. split; [|rewrite ?app_length; cbn; lia]. rewrite <- app_assoc. now apply keep_app.
Qed.
Lemma new_data_keep n h d o : (n <= length h)%nat -> mkeep n h (new_data h d o).
Proof. intros N. unfold new_data. do 3 rb. now apply mkeep_put2. Qed.
Lemma new_request_keep n h v o : (n <= length h)%nat -> mkeep n h (new_request h v o).
Proof. intros N. unfold new_request. do 2 rb. now apply mkeep_put2. Qed.
Lemma new_conf_keep n h q d a : (n <= length h)%nat -> mkeep n h (new_conf h q d a).
Proof. intros N. unfold new_conf. do 3 rb. now apply mkeep_put. Qed.
Lemma new_action_keep n h k o : (n <= length h)%nat -> mkeep n h (new_action h k o).
Proof. intros N. unfold new_action. do 2 rb. now apply mkeep_put. Qed.
Lemma new_command_keep n h r t : (n <= length h)%nat -> mkeep n h (new_command h r t).
Proof. intros N. unfold new_command. rb. now apply mkeep_put. Qed.
(** an operation on a command: all other objects stay *)
Definition ckeep (c : Ref) (h : Store) (m : res Store) : Prop :=
  match m with
  | Ok h' => (length h <= length h')%nat /\ forall r, (r < length h)%nat -> r <> c -> nth_error h' r = nth_error h r
  | Err _ => True
  end.
Lemma append_keep h c a : ckeep c h (append_action h c a).
Proof.
  unfold append_action. destruct (nth_error h c) as [[]|]; cbn; auto.
  split; [rewrite put_at_length; lia|]. intros r _ N. apply put_at_other; auto.
Qed.
Lemma ckeep_after n h h' c m : (n <= length h)%nat -> keep n h h' -> ckeep c h' m ->
  match m with Ok h'' => (length h <= length h'')%nat /\ forall r, (r < n)%nat -> r <> c -> nth_error h'' r = nth_error h r | Err _ => True end.
Proof.
  intros N [K1 K2] C. destruct m as [h''|]; cbn in *; auto. destruct C as [C1 C2]. split; [lia|].
  intros r Hr Hc. rewrite C2 by lia. auto.
Qed.
Lemma forward_keep h c t conf : ckeep c h (forward_to h c t conf).
Proof.
  unfold forward_to.
  assert (F : forall h0 cf, keep (length h) h h0 ->
    ckeep c h (let (h0, i) := put h0 (OIface t cf) in
      let! (h0, a) := new_action h0 (Regular false false) (RForward i) in append_action h0 c a)).
  { intros h0 cf K. cbn [put].
    pose proof (new_action_keep (length h) (h0 ++ [OIface t cf]) (Regular false false) (RForward (length h0))) as NK.
    destruct (new_action _ _ _) as [[h1 a]|]; cbn [rbind]; [|exact I].
    destruct K as [K1 K2]. destruct NK as [[N1 N2] _]; [rewrite app_length; lia|].
    rewrite app_length in N1. pose proof (append_keep h1 c a) as AK. destruct (append_action h1 c a) as [h2|]; cbn in *; auto.
    destruct AK as [A1 A2]. split; [lia|]. intros r Hr Hc. rewrite A2 by lia. rewrite N2 by lia. rewrite nth_old by lia. auto. }
  destruct t.
  - destruct conf; cbn; auto.
  - apply F, keep_refl.
  - apply F, keep_refl.
  - apply F, keep_refl.
  - destruct conf as [cf|]; [apply F, keep_refl|].
    pose proof (new_conf_keep (length h) h None None None) as NK.
    destruct (new_conf h None None None) as [[h1 x]|]; cbn [rbind]; [|exact I]. apply F. now apply NK.
Qed.

Definition post (n : nat) (h : Store) (m : made) : Prop :=
  match m with Ok (h', c) => keep n h h' /\ (n <= c < length h')%nat | Err _ => True end.
Lemma post_made n h h1 m f : keep n h h1 -> (n <= length h)%nat ->
  (forall k, (k <= length h1)%nat -> mkeep k h1 m) ->
  (forall h2 r, keep n h h2 -> (length h1 <= length h2)%nat -> post n h (f (h2, r))) -> post n h (rbind m f).
Proof.
  intros K N M F. destruct m as [[h2 r]|]; cbn [rbind]; [|exact I]. specialize (M n). cbn in M.
  destruct K as [K K']. destruct M as ((M&M')&M2); [lia|]. apply F; [|lia].
  split; [lia|]. intros x Hx. rewrite M', K' by lia. reflexivity.
Qed.
Lemma post_change n h h1 c m f : keep n h h1 -> (n <= length h)%nat -> (n <= c)%nat -> ckeep c h1 m ->
  (forall h2, keep n h h2 -> (length h1 <= length h2)%nat -> post n h (f h2)) -> post n h (rbind m f).
Proof.
  intros [K K'] N C M F. destruct m as [h2|]; cbn [rbind]; [|exact I]. destruct M as [M M']. apply F; [|lia].
  split; [lia|]. intros x Hx. rewrite M', K' by lia. reflexivity.
Qed.
Lemma factory_keep h rnd tag t conf (rest : Store -> Ref -> made) :
  (forall h1 c, keep (length h) h h1 -> (length h <= c < length h1)%nat -> post (length h) h (rest h1 c)) ->
  post (length h) h (let! (h, c) := new_command h rnd tag in let! h := forward_to h c t conf in rest h c).
Proof.
  intros F. pose proof (new_command_keep (length h) h rnd tag (le_n _)) as K0.
  destruct (new_command h rnd tag) as [[h0 c]|]; cbn [rbind]; [|exact I]. destruct K0 as (K0&K1&K2).
  eapply post_change; [exact K0|lia|exact K1|apply forward_keep|]. intros h2 K3 L3. apply F; [exact K3|lia].
Qed.
Lemma write_keep h rnd i d off t conf : post (length h) h (make_write h rnd i d off t conf).
Proof.
  unfold make_write. apply factory_keep with (rest := fun h c =>
  let! (h, l) := new_length h off in
  let! (h, o) := new_offset h i (Some l) in
  let! (h, d) := new_data h (Some d) (Some o) in
  let! (h, a) := new_action h (Regular false false) (RWrite d) in
  let! h := append_action h c a in
  Ok (h, c)). intros h1 c K C.
  eapply post_made; [exact K|lia|intros; now apply new_length_keep|]. intros h2 r2 K2 L2.
  eapply post_made; [exact K2|lia|intros; now apply new_offset_keep|]. intros h3 r3 K3 L3.
  eapply post_made; [exact K3|lia|intros; now apply new_data_keep|]. intros h4 r4 K4 L4.
  eapply post_made; [exact K4|lia|intros; now apply new_action_keep|]. intros h5 r5 K5 L5.
  eapply post_change; [exact K5|lia|apply (proj1 C)|apply append_keep|]. intros h6 K6 L6. cbn. split; [exact K6|lia].
Qed.
Lemma read_keep h rnd i l off t conf : post (length h) h (make_read h rnd i l off t conf).
Proof.
  unfold make_read. apply factory_keep with (rest := fun h c =>
  let! (h, ol) := new_length h off in
  let! (h, o) := new_offset h i (Some ol) in
  let! (h, d) := new_request h l (Some o) in
  let! (h, a) := new_action h (Regular false false) (RRead d) in
  let! h := append_action h c a in
  Ok (h, c)). intros h1 c K C.
  eapply post_made; [exact K|lia|intros; now apply new_length_keep|]. intros h2 r2 K2 L2.
  eapply post_made; [exact K2|lia|intros; now apply new_offset_keep|]. intros h3 r3 K3 L3.
  eapply post_made; [exact K3|lia|intros; now apply new_request_keep|]. intros h4 r4 K4 L4.
  eapply post_made; [exact K4|lia|intros; now apply new_action_keep|]. intros h5 r5 K5 L5.
  eapply post_change; [exact K5|lia|apply (proj1 C)|apply append_keep|]. intros h6 K6 L6. cbn. split; [exact K6|lia].
Qed.
Lemma return_keep h rnd i d off tag t conf : post (length h) h (make_return h rnd i d off tag t conf).
Proof.
  unfold make_return. apply factory_keep with (rest := fun h c =>
  let! (h, l) := new_length h off in
  let! (h, o) := new_offset h i (Some l) in
  let! (h, d) := new_data h (Some d) (Some o) in
  let! v := of_class (the_data h d) in
  let! (h, a) := new_action h (Regular false false) (RReturn d (try_parse_system_file v)) in
  let! h := append_action h c a in
  Ok (h, c)). intros h1 c K C.
  eapply post_made; [exact K|lia|intros; now apply new_length_keep|]. intros h2 r2 K2 L2.
  eapply post_made; [exact K2|lia|intros; now apply new_offset_keep|]. intros h3 r3 K3 L3.
  eapply post_made; [exact K3|lia|intros; now apply new_data_keep|]. intros h4 r4 K4 L4.
  destruct (of_class (the_data h4 r4)) as [v|]; cbn [rbind]; [|exact I].
  eapply post_made; [exact K4|lia|intros; now apply new_action_keep|]. intros h5 r5 K5 L5.
  eapply post_change; [exact K5|lia|apply (proj1 C)|apply append_keep|]. intros h6 K6 L6. cbn. split; [exact K6|lia].
Qed.

Theorem call_keeps h k : (length h <= length (call h k))%nat
  /\ forall r, (r < length h)%nat -> target k <> Some r -> nth_error (call h k) r = nth_error h r.
Proof.
  assert (M : forall m, mkeep (length h) h m -> (length h <= length (made_store h m))%nat
    /\ forall r, (r < length h)%nat -> nth_error (made_store h m) r = nth_error h r).
  { intros [[h' r]|] K; cbn in *; [destruct K as [[K1 K2] _]|]; auto. }
  assert (Q : forall m, post (length h) h m -> (length h <= length (made_store h m))%nat
    /\ forall r, (r < length h)%nat -> nth_error (made_store h m) r = nth_error h r).
  { intros [[h' r]|] K; cbn in *; [destruct K as [[K1 K2] _]|]; auto. }
  assert (C : forall c m, ckeep c h m -> (length h <= length (changed_store h m))%nat
    /\ forall r, (r < length h)%nat -> Some c <> Some r -> nth_error (changed_store h m) r = nth_error h r).
  { intros c [h'|] K; cbn in *; [destruct K as [K1 K2]|]; [|auto]. split; [exact K1|]. intros r Hr Hc. apply K2; [exact Hr|intros ->; now apply Hc]. }
  assert (A : forall l, (length h <= length (h ++ l))%nat /\ forall r, (r < length h)%nat -> nth_error (h ++ l) r = nth_error h r).
  { intros l. split; [rewrite app_length; lia|]. intros; now apply nth_old. }
  assert (D : forall h', (length h <= length h')%nat /\ (forall r, (r < length h)%nat -> nth_error h' r = nth_error h r) ->
    (length h <= length h')%nat /\ forall r, (r < length h)%nat -> target k <> Some r -> nth_error h' r = nth_error h r).
  { intros h' [H1 H2]; auto. }
  destruct k; cbn [call target] in *.
  - apply D. destruct (atomic o); [apply A|split; auto].
  - apply D, M. now apply new_length_keep.
  - apply D, M. now apply new_offset_keep.
  - apply D, M. now apply new_data_keep.
  - apply D, M. now apply new_request_keep.
  - apply D, M. now apply new_conf_keep.
  - apply D, A.
  - apply D, M. now apply new_action_keep.
  - apply D, M. now apply new_command_keep.
  - apply D, Q. apply write_keep.
  - apply D, Q. apply read_keep.
  - apply D, Q. apply return_keep.
  - apply D. unfold parsed_conf. cbn [put fst]. rewrite <- !app_assoc. apply A.
  - apply C, append_keep.
  - apply C, forward_keep.
  - destruct (nth_error h r) as [old|]; [|split; auto]. destruct (class_of old =? class_of o); [|split; auto].
    split; [rewrite put_at_length; lia|]. intros x Hx N. apply put_at_other. intros ->; now apply N.
Qed.

(** ** what never changes: the classes of objects *)
Definition classes (h h' : Store) : Prop :=
  forall r o, nth_error h r = Some o -> exists o', nth_error h' r = Some o' /\ class_of o' = class_of o.
Lemma classes_refl h : classes h h. Proof. intros r o E; eauto. Qed.
Lemma classes_trans a b c : classes a b -> classes b c -> classes a c.
Proof. intros H1 H2 r o E. destruct (H1 _ _ E) as (o1&E1&C1). destruct (H2 _ _ E1) as (o2&E2&C2). exists o2; split; congruence. Qed.
Lemma classes_keep h h' : keep (length h) h h' -> classes h h'.
Proof. intros [_ K] r o E. rewrite K by (eapply nth_lt, E). eauto. Qed.
Lemma append_classes h c a h' : append_action h c a = Ok h' -> classes h h'.
Proof.
  unfold append_action. destruct (nth_error h c) as [[]|] eqn:E; try discriminate. intros H; injection H as <-.
  intros r o Er. destruct (Nat.eq_dec c r) as [->|N].
  - rewrite put_at_same by (eapply nth_lt, E). rewrite E in Er. injection Er as <-. eauto.
  - rewrite put_at_other by exact N. eauto.
Qed.
Lemma forward_classes h c t conf h' : forward_to h c t conf = Ok h' -> classes h h'.
Proof.
  unfold forward_to.
  assert (F : forall h0 cf h', (let (h0, i) := put h0 (OIface t cf) in
      let! (h0, a) := new_action h0 (Regular false false) (RForward i) in append_action h0 c a) = Ok h' -> classes h0 h').
  { intros h0 cf h1. cbn [put].
    pose proof (new_action_keep (length h0) (h0 ++ [OIface t cf]) (Regular false false) (RForward (length h0))) as NK.
    destruct (new_action _ _ _) as [[h2 a]|]; cbn [rbind]; [|discriminate]. intros A.
    eapply classes_trans; [|eapply append_classes, A]. apply classes_keep. eapply keep_trans; [apply keep_app; auto|].
    apply NK. rewrite app_length; lia. }
  destruct t.
  - destruct conf; [discriminate|]. intros H; injection H as <-. apply classes_refl.
  - apply F.
  - apply F.
  - apply F.
  - destruct conf as [cf|]; [apply F|].
    pose proof (new_conf_keep (length h) h None None None) as NK.
    destruct (new_conf h None None None) as [[h1 x]|]; cbn [rbind]; [|discriminate]. intros H.
    eapply classes_trans; [|eapply F, H]. apply classes_keep. now apply NK.
Qed.
Lemma call_classes h k : classes h (call h k).
Proof.
  destruct (target k) as [c|] eqn:T.
  - destruct k; try discriminate T; cbn [call].
    + destruct (append_action h c0 a) as [h'|] eqn:E; cbn [changed_store]; [eapply append_classes, E|apply classes_refl].
    + destruct (forward_to h c0 t conf) as [h'|] eqn:E; cbn [changed_store]; [eapply forward_classes, E|apply classes_refl].
    + destruct (nth_error h r) as [old|] eqn:E; [|apply classes_refl].
      destruct (class_of old =? class_of o) eqn:Q; [|apply classes_refl]. apply Z.eqb_eq in Q.
      intros x o' Ex. destruct (Nat.eq_dec r x) as [->|N].
      * rewrite put_at_same by (eapply nth_lt, E). rewrite E in Ex. injection Ex as <-. eauto.
      * rewrite put_at_other by exact N. eauto.
  - apply classes_keep. destruct (call_keeps h k) as [K1 K2]. split; [exact K1|]. intros r Hr. apply K2; [exact Hr|rewrite T; discriminate].
Qed.
Lemma program_classes l h : classes h (program h l).
Proof. revert h. induction l as [|k l IH]; intros h; cbn [program]; [apply classes_refl|]. eapply classes_trans; [apply call_classes|apply IH]. Qed.
Theorem history_defaults h : history h ->
  (exists c, default_conf h c) /\ (exists b, the_bytes h DEFAULT_DATA = Some b)
  /\ (exists o, nth_error h DEFAULT_DATA_OFFSET = Some o /\ class_of o = 6) /\ (exists v, the_len h DEFAULT_LENGTH = Some v).
Proof.
  intros [l ->]. pose proof (program_classes l loaded) as C.
  assert (X : forall r, match nth_error loaded r with Some o => exists o', nth_error (program loaded l) r = Some o' /\ class_of o' = class_of o | None => True end).
  { intros r. destruct (nth_error loaded r) eqn:E; [|exact I]. now apply C. }
  split; [|repeat split].
  - destruct (X DEFAULT_QOS) as (q&Q1&Q2). destruct (X DEFAULT_DORM_TO) as (d&D1&D2). destruct (X DEFAULT_ADDRESSEE) as (a&A1&A2).
    destruct q; try discriminate Q2. destruct d; try discriminate D2. destruct a; try discriminate A2.
    exists (mkConf q c a). unfold default_conf, the_qos, the_ct, the_addr. now rewrite Q1, D1, A1.
  - destruct (X DEFAULT_DATA) as (d&D1&D2). destruct d; try discriminate D2. unfold the_bytes. rewrite D1. eauto.
  - destruct (X DEFAULT_DATA_OFFSET) as (d&D1&D2). eauto.
  - destruct (X DEFAULT_LENGTH) as (d&D1&D2). destruct d; try discriminate D2. unfold the_len. rewrite D1. eauto.
Qed.

(** ** values over whole programs *)
Lemma program_keeps l h r : (r < length h)%nat -> (forall k, In k l -> target k <> Some r) -> nth_error (program h l) r = nth_error h r.
Proof.
  revert h. induction l as [|k l IH]; intros h Lr T; cbn [program]; [reflexivity|].
  destruct (call_keeps h k) as [K1 K2]. rewrite IH; [apply K2|lia|]; [exact Lr|apply T; now left|]. intros k' I'. apply T. now right.
Qed.
