From Coq Require Import Lia.
From Verif Require Import MBase MCt MSp MOperands MAlp SShare LShare LShare2 LShare3 LShare4.

Local Open Scope nat_scope.

(** ** the objects a factory makes, one by one *)
Lemma nth_at {A} (g l : list A) k : nth_error (g ++ l) (length g + k) = nth_error l k.
Proof. rewrite nth_error_app2 by lia. f_equal. lia. Qed.
Lemma put_at_at (g l : Store) k o : put_at (g ++ l) (length g + k) o = g ++ put_at l k o.
Proof. induction g as [|x g IH]; cbn; [reflexivity|]. now rewrite IH. Qed.

Definition fwd_objs (n : nat) (t : InterfaceType) (conf : option Ref) : list Obj :=
  match t, conf with
  | IF_HOST, _ => []
  | IF_D7ASP, None => [OConf DEFAULT_QOS DEFAULT_DORM_TO DEFAULT_ADDRESSEE; OIface IF_D7ASP (Some (n + 1)%nat); OAct (Regular false false) (RForward (n + 2))]
  | IF_SERIAL, _ => [OIface IF_SERIAL None; OAct (Regular false false) (RForward (n + 1))]
  | _, _ => [OIface t conf; OAct (Regular false false) (RForward (n + 1))]
  end.
Definition fwd_acts (n : nat) (t : InterfaceType) (conf : option Ref) : list Ref :=
  match t, conf with IF_HOST, _ => [] | IF_D7ASP, None => [(n + 3)%nat] | _, _ => [(n + 2)%nat] end.

Lemma new_action_inv h k o h' a : new_action h k o = Ok (h', a) -> h' = h ++ [OAct k o] /\ a = length h.
Proof.
  unfold new_action. destruct (of_class (the_op h o)) as [v|]; cbn [rbind]; [|discriminate].
  destruct (mk_action k v); cbn [rbind]; [|discriminate]. intros H; now injection H as <- <-.
Qed.
Lemma forward_objs h c0 t conf h2 : forward_to (h ++ [OCmd [] c0]) (length h) t conf = Ok h2 ->
  h2 = h ++ OCmd (fwd_acts (length h) t conf) c0 :: fwd_objs (length h) t conf.
Proof.
  unfold forward_to.
  assert (F : forall t cf E h2, (let (h0, i) := put (h ++ OCmd [] c0 :: E) (OIface t cf) in
      let! (h0, a) := new_action h0 (Regular false false) (RForward i) in append_action h0 (length h) a) = Ok h2 ->
      h2 = h ++ OCmd [(length h + (2 + length E))%nat] c0 :: E ++ [OIface t cf; OAct (Regular false false) (RForward (length h + (1 + length E)))]).
  { intros t' cf E h3. cbn [put]. set (ha := (h ++ OCmd [] c0 :: E) ++ [OIface t' cf]).
    destruct (new_action ha (Regular false false) (RForward (length (h ++ OCmd [] c0 :: E)))) as [[h4 a]|] eqn:NA; cbn [rbind]; [|discriminate].
    apply new_action_inv in NA. destruct NA as [-> ->]. unfold append_action, ha.
    repeat rewrite <- app_assoc. cbn [app]. pose proof (nth_at h (OCmd [] c0 :: E ++ [OIface t' cf; OAct (Regular false false) (RForward (length (h ++ OCmd [] c0 :: E)))]) 0) as N0.
    rewrite Nat.add_0_r in N0. rewrite N0. cbn [nth_error]. intros X. injection X as <-.
    pose proof (put_at_at h (OCmd [] c0 :: E ++ [OIface t' cf; OAct (Regular false false) (RForward (length (h ++ OCmd [] c0 :: E)))]) 0) as P0.
    rewrite Nat.add_0_r in P0. rewrite P0. cbn [put_at]. rewrite !app_length. cbn [length app]. rewrite app_length. cbn [length].
    repeat f_equal; lia. }
  destruct t.
  - destruct conf; [discriminate|]. intros X; injection X as <-. reflexivity.
  - intros X. apply (F IF_SERIAL None []) in X. exact X.
  - intros X. apply (F IF_ABP conf []) in X. exact X.
  - intros X. apply (F IF_OTAA conf []) in X. exact X.
  - destruct conf as [r|].
    + intros X. apply (F IF_D7ASP (Some r) []) in X. exact X.
    + unfold new_conf. cbn [given].
      destruct (of_class (the_qos _ _)) as [?|]; cbn [rbind]; [|discriminate]. destruct (of_class (the_ct _ _)) as [?|]; cbn [rbind]; [|discriminate].
      destruct (of_class (the_addr _ _)) as [?|]; cbn [rbind]; [|discriminate]. intros X.
      change (put (h ++ [OCmd [] c0]) (OConf DEFAULT_QOS DEFAULT_DORM_TO DEFAULT_ADDRESSEE)) with
        ((h ++ [OCmd [] c0]) ++ [OConf DEFAULT_QOS DEFAULT_DORM_TO DEFAULT_ADDRESSEE], length (h ++ [OCmd [] c0])) in X.
      cbn [fst snd] in X. rewrite <- app_assoc in X. cbn [app] in X.
      apply (F IF_D7ASP _ [OConf DEFAULT_QOS DEFAULT_DORM_TO DEFAULT_ADDRESSEE]) in X. rewrite X. rewrite app_length. cbn [length].
      reflexivity.
Qed.

(** ** their values at any later time *)
Section Later.
  Context (g : Store) (n : nat) (t : InterfaceType) (conf : option Ref) (cv : option IfConfig) (c0 : Command).
  Context (A : conf_arg g t conf cv).
  Lemma fwd_later acts rest (v0 : Command) :
    (forall k o, nth_error (OCmd acts rest :: fwd_objs n t conf) k = Some o -> (0 < k)%nat -> nth_error g (n + k) = Some o) ->
    match add_forward_action v0 t cv with
    | Ok v => exists l, all_some (map (the_action g) (fwd_acts n t conf)) = Some l /\ v = with_actions v0 (c_actions v0 ++ l)
    | Err e => t = IF_HOST /\ conf <> None
    end.
  Proof.
    intros E.
    assert (SOME : forall t r c i a, the_conf g r = Some c -> nth_error g i = Some (OIface t (Some r)) ->
       nth_error g a = Some (OAct (Regular false false) (RForward i)) ->
       the_action g a = Some (mkAction (Regular false false) (Forward (mkIC t (Some c))))).
    { intros t' r c i a V I AA. unfold the_action. rewrite AA. cbn [the_op]. unfold the_iface. rewrite I, V. reflexivity. }
    assert (NONE : forall t i a, nth_error g i = Some (OIface t None) ->
       nth_error g a = Some (OAct (Regular false false) (RForward i)) ->
       the_action g a = Some (mkAction (Regular false false) (Forward (mkIC t None)))).
    { intros t' i a I AA. unfold the_action. rewrite AA. cbn [the_op]. unfold the_iface. rewrite I. reflexivity. }
    destruct t, conf as [r|]; cbn [conf_arg fwd_objs fwd_acts map all_some] in *.
    - destruct A as (c&_&->). cbn. split; [reflexivity|discriminate].
    - subst cv. cbn. exists []. split; [reflexivity|]. unfold with_actions. rewrite app_nil_r. now destruct v0.
    - cbn. rewrite (NONE IF_SERIAL (n + 1)%nat _ (E 1%nat _ eq_refl ltac:(lia)) (E 2%nat _ eq_refl ltac:(lia))). eexists. split; reflexivity.
    - cbn. rewrite (NONE IF_SERIAL (n + 1)%nat _ (E 1%nat _ eq_refl ltac:(lia)) (E 2%nat _ eq_refl ltac:(lia))). eexists. split; reflexivity.
    - destruct A as (c&V&->). cbn. rewrite (SOME IF_ABP r c (n + 1)%nat _ V (E 1%nat _ eq_refl ltac:(lia)) (E 2%nat _ eq_refl ltac:(lia))). eexists. split; reflexivity.
    - subst cv. cbn. rewrite (NONE IF_ABP (n + 1)%nat _ (E 1%nat _ eq_refl ltac:(lia)) (E 2%nat _ eq_refl ltac:(lia))). eexists. split; reflexivity.
    - destruct A as (c&V&->). cbn. rewrite (SOME IF_OTAA r c (n + 1)%nat _ V (E 1%nat _ eq_refl ltac:(lia)) (E 2%nat _ eq_refl ltac:(lia))). eexists. split; reflexivity.
    - subst cv. cbn. rewrite (NONE IF_OTAA (n + 1)%nat _ (E 1%nat _ eq_refl ltac:(lia)) (E 2%nat _ eq_refl ltac:(lia))). eexists. split; reflexivity.
    - destruct A as (c&V&->). cbn. rewrite (SOME IF_D7ASP r c (n + 1)%nat _ V (E 1%nat _ eq_refl ltac:(lia)) (E 2%nat _ eq_refl ltac:(lia))). eexists. split; reflexivity.
    - destruct A as (c&(Q&D&AD)&->). cbn.
      rewrite (SOME IF_D7ASP (n + 1)%nat (CfgD7 c) (n + 2)%nat _); [eexists; split; reflexivity| |exact (E 2%nat _ eq_refl ltac:(lia))|exact (E 3%nat _ eq_refl ltac:(lia))].
      unfold the_conf. rewrite (E 1%nat _ eq_refl ltac:(lia)), Q, D, AD. now destruct c.
  Qed.
End Later.

Definition data_objs (m : nat) (id off len : Z) (data : Ref) : list Obj :=
  [OLen (mkLength off); OOff id m; OLen (mkLength len); OData (m + 1) (m + 2) data].
Lemma data_objs_made h id off data bs h' d : the_bytes h data = Some bs -> data_operand h id off data = Ok (h', d) ->
  h' = h ++ data_objs (length h) id off (zlen bs) data /\ d = (length h + 3)%nat.
Proof.
  intros B. unfold data_operand, new_length, new_offset, new_data, mk_length, validated.
  destruct (in_range 0 1073741823 off); cbn [rbind put]; [|discriminate]. cbn [given].
  rewrite the_len_new. cbn [of_class rbind]. destruct (mk_offset id (mkLength off)) eqn:MO; cbn [rbind put]; [|discriminate].
  set (h4 := (h ++ [OLen (mkLength off)]) ++ [OOff id (length h)]).
  destruct (the_bytes h4 data) as [bs'|] eqn:B4; cbn [of_class rbind]; [|discriminate].
  assert (bs' = bs).
  { pose proof (the_bytes_le h h4) as X. specialize (X ltac:(unfold h4; rewrite <- app_assoc; apply le_put) data bs B). congruence. }
  subst bs'. destruct (the_off h4 _) as [o|]; cbn [of_class rbind]; [|discriminate].
  destruct (mk_data bs o) as [dv|] eqn:MD; cbn [rbind]; [|discriminate]. intros X. injection X as <- <-.
  assert (DL : d_length dv = mkLength (zlen bs)).
  { unfold mk_data, mk_length, validated in MD. destruct (in_range 0 1073741823 (zlen bs)); cbn [rbind] in MD; [|discriminate].
    destruct (forallb is_BYTE bs); [|discriminate]. now injection MD as <-. }
  rewrite DL. unfold h4, data_objs. repeat rewrite <- app_assoc. cbn [app]. rewrite !app_length. cbn [length].
  split; [do 4 f_equal; f_equal; f_equal; lia|lia].
Qed.
Definition req_objs (m : nat) (id off len : Z) : list Obj := [OLen (mkLength off); OOff id m; OLen (mkLength len); OReq (m + 1) (m + 2)].
Lemma req_objs_made h id off len h' d : req_operand h id off len = Ok (h', d) ->
  h' = h ++ req_objs (length h) id off len /\ d = (length h + 3)%nat.
Proof.
  unfold req_operand, new_length, new_offset, new_request, mk_length, validated.
  destruct (in_range 0 1073741823 off); cbn [rbind put]; [|discriminate]. cbn [given].
  rewrite the_len_new. cbn [of_class rbind]. destruct (mk_offset id (mkLength off)) eqn:MO; cbn [rbind put]; [|discriminate].
  set (h4 := (h ++ [OLen (mkLength off)]) ++ [OOff id (length h)]).
  destruct (the_off h4 _) as [o|]; cbn [of_class rbind]; [|discriminate].
  destruct (mk_data_request len o) as [dv|] eqn:MD; cbn [rbind]; [|discriminate]. intros X. injection X as <- <-.
  assert (DL : dr_length dv = mkLength len).
  { unfold mk_data_request, mk_length, validated in MD. destruct (in_range 0 1073741823 len); cbn [rbind] in MD; [|discriminate]. now injection MD as <-. }
  rewrite DL. unfold h4, req_objs. repeat rewrite <- app_assoc. cbn [app]. rewrite !app_length. cbn [length].
  split; [do 4 f_equal; f_equal; f_equal; lia|lia].
Qed.

(** the whole factory *)
Definition all_objs (n : nat) (t : InterfaceType) (conf : option Ref) (c0 : Command) (D : nat -> list Obj) (o : nat -> OpRef) : list Obj :=
  let m := (n + S (length (fwd_objs n t conf)))%nat in
  OCmd (fwd_acts n t conf ++ [(m + 4)%nat]) c0 :: fwd_objs n t conf ++ D m ++ [OAct (Regular false false) (o m)].
Definition command0 (rnd : Z) (tag : option Z) : Command :=
  mkCommand [] None true (match tag with Some x => Some x | None => Some rnd end) true false None.
Lemma close_objs h acts c0 E o h' c' : close (h ++ OCmd acts c0 :: E) (length h) o = Ok (h', c') ->
  c' = length h /\ h' = h ++ OCmd (acts ++ [(length h + S (length E))%nat]) c0 :: E ++ [OAct (Regular false false) o].
Proof.
  unfold close. destruct (new_action _ _ o) as [[h4 a]|] eqn:NA; cbn [rbind]; [|discriminate].
  apply new_action_inv in NA. destruct NA as [-> ->]. unfold append_action. rewrite <- app_assoc. cbn [app].
  pose proof (nth_at h (OCmd acts c0 :: E ++ [OAct (Regular false false) o]) 0) as N0. rewrite Nat.add_0_r in N0. rewrite N0. cbn [nth_error rbind].
  intros X. injection X as <- <-. split; [reflexivity|].
  pose proof (put_at_at h (OCmd acts c0 :: E ++ [OAct (Regular false false) o]) 0) as P0. rewrite Nat.add_0_r in P0. rewrite P0. cbn [put_at].
  rewrite app_length. reflexivity.
Qed.
Lemma factory_objs h rnd tag t conf (operand : Store -> made) (D : nat -> list Obj) (op : Ref -> Store -> res OpRef) h' c
  (HD : forall h2 h5 d, keep (length h) h h2 -> operand h2 = Ok (h5, d) -> h5 = h2 ++ D (length h2) /\ d = (length h2 + 3)%nat /\ length (D (length h2)) = 4%nat) :
  (let! (h, c) := new_command h rnd tag in let! h := forward_to h c t conf in
         let! (h, d) := operand h in let! o := op d h in close h c o) = Ok (h', c) ->
  c = length h /\ exists o h5, h5 = h ++ OCmd (fwd_acts (length h) t conf) (command0 rnd tag) :: fwd_objs (length h) t conf ++ D (length h + S (length (fwd_objs (length h) t conf)))%nat
   /\ op (length h + S (length (fwd_objs (length h) t conf)) + 3)%nat h5 = Ok o
   /\ h' = h ++ all_objs (length h) t conf (command0 rnd tag) D (fun _ => o).
Proof.
  unfold new_command. assert (MC : mk_command rnd [] true tag true = Ok (command0 rnd tag)) by (destruct tag; reflexivity).
  rewrite MC. cbn [rbind put].
  destruct (forward_to (h ++ [OCmd [] (command0 rnd tag)]) (length h) t conf) as [h2|] eqn:F; cbn [rbind]; [|discriminate].
  assert (K : keep (length h) h h2).
  { pose proof (forward_keep (h ++ [OCmd [] (command0 rnd tag)]) (length h) t conf) as FK. rewrite F in FK. destruct FK as [L FK].
    rewrite app_length in *. cbn [length] in *. split; [lia|]. intros r Hr. rewrite FK by lia. apply nth_old. exact Hr. }
  apply forward_objs in F.
  destruct (operand h2) as [[h5 d]|] eqn:O; cbn [rbind]; [|discriminate].
  destruct (op d h5) as [o|] eqn:P; cbn [rbind]; [|discriminate].
  destruct (HD _ _ _ K O) as (H5&Hd&LD). intros X.
  assert (L2 : length h2 = (length h + S (length (fwd_objs (length h) t conf)))%nat) by (rewrite F, app_length; cbn [length]; lia).
  rewrite L2 in *. rewrite F in H5. rewrite <- app_assoc in H5. cbn [app] in H5. rewrite H5 in X. apply close_objs in X. destruct X as [-> ->].
  split; [reflexivity|]. exists o, h5. split; [exact H5|]. split; [now rewrite <- Hd|]. unfold all_objs. rewrite <- app_assoc. do 2 f_equal.
  rewrite app_length, LD. do 3 f_equal. lia.
Qed.
