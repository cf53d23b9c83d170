(** Lemmas for C99: when a command arrives as it was *)
From Coq Require Import ZifyBool ZifyNat Lia.
From Verif Require Import SRelay LReser LTags LParsed LAction LSp LCommand LReject LTight LRelay LRelaySize.
Open Scope list_scope.
Open Scope Z_scope.

Definition total {A} (f : A -> nat) (l : list A) : nat := fold_right (fun a n => f a + n)%nat 0%nat l.
Lemma reads_size s l s' : reads s l s' -> (total full l + length (bits s') <= length (bits s))%nat.
Proof.
  induction 1 as [s|s a s1 l s2 E R IH]; cbn [total fold_right]; [lia|]. apply uses_action in E. unfold total in IH. lia.
Qed.
Definition size (a : Action) : nat := if is_forward a then 0%nat else length (action_layout a).
Lemma full_plain l : (total size (filter plain l) <= total full (map Some l))%nat.
Proof.
  unfold total. induction l as [|a l IH]; cbn [filter map fold_right]; [lia|]. unfold full at 1.
  destruct (plain a) eqn:P; cbn [andb fold_right]; [|lia]. unfold size at 1. destruct (is_forward a); cbn [negb]; lia.
Qed.
Lemma contribution_short a : carried a -> is_forward a = false ->
  (length (contribution a) <= size a)%nat /\ (length (contribution a) = size a -> writable a).
Proof.
  destruct a as [k o]. intros [[W H] P] N. unfold size. rewrite N. unfold plain, is_tag, is_status, contribution, action_layout, writable in *.
  cbn [a_kind a_op] in *. destruct k as [g r|r|v r|e|r|e x]; try discriminate.
  - assert (D : forall d, (o = WriteFileData d \/ exists p, o = ReturnFileData d p) -> (16 <= length (act_bits g r o))%nat).
    { intros d Ho. unfold act_bits. rewrite !app_length, Zbits_length. cbn [length].
      destruct Ho as [-> | (p & ->)]; cbn [operand_layout]; unfold data_layout, off_layout; rewrite !app_length, Zbits_length; lia. }
    destruct o; try contradiction; try (split; [lia | intros _; exact I]).
    + specialize (D o (or_introl eq_refl)). destruct (d_data o); [|split; [lia | intros _; discriminate]].
      rewrite app_length, Zbits_length. cbn [length]. split; lia.
    + specialize (D o (or_intror (ex_intro _ _ eq_refl))). destruct (d_data o); [|split; [lia | intros _; discriminate]].
      rewrite app_length, Zbits_length. cbn [length]. split; lia.
  - destruct o; try contradiction. split; [lia | intros _; exact I].
  - destruct o; try contradiction. destruct H as [-> _]. discriminate.
Qed.
Lemma all_written l : Forall carried l -> existsb is_forward l = false ->
  (length (flat_map contribution l) <= total size l)%nat
  /\ (length (flat_map contribution l) = total size l -> Forall writable l).
Proof.
  induction 1 as [|a l C H IH]; intros N; [split; [cbn; lia | constructor]|]. cbn [existsb] in N. apply orb_false_iff in N as [Na Nl].
  destruct (IH Nl) as [I1 I2]. destruct (contribution_short a C Na) as [S1 S2]. unfold total in *. cbn [flat_map fold_right]. rewrite app_length.
  split; [lia|]. intros E. constructor; [apply S2; lia | apply I2; lia].
Qed.
Lemma read_lasting acts : Forall carried acts -> Forall writable acts -> forall s l s',
  bits s = flat_map action_layout acts -> reads s (map Some l) s' -> filter plain l = acts -> Forall lasting acts.
Proof.
  induction 1 as [|a acts C H IH]; intros V s l s' B R E; [constructor|]. inversion V as [|? ? Va Vl]; subst.
  destruct l as [|x l]; [discriminate|]. cbn [map] in R. inversion R as [|? ? s1 ? ? E1 R1]; subst.
  destruct s as [ps b]. cbn [bits] in B. subst b. cbn [flat_map] in E1. rewrite (hop_accepts a C Va) in E1. injection E1 as Ex <-.
  subst x. cbn [filter] in E. rewrite hop_plain, (proj2 C) in E. injection E as Ea El.
  constructor; [apply hop_same_iff; [exact C | exact Va | exact Ea]|].
  eapply IH; [exact Vl | | exact R1 | exact El]. reflexivity.
Qed.
Lemma tag_read rnd respond ps rest a s1 : 0 <= rnd <= 255 ->
  parse_action (St ps (tag_bits respond rnd ++ rest)) = Ok (a, s1) ->
  a = Some (mkAction (TagReqAct respond) (TagRequest (mkTag rnd))) /\ bits s1 = rest.
Proof.
  intros R E. pose proof (action_accepts _ (tag_action_wf respond rnd R)) as X.
  change (action_layout (mkAction (TagReqAct respond) (TagRequest (mkTag rnd)))) with (tag_bits respond rnd) in X.
  rewrite X in E. injection E as <- <-. split; reflexivity.
Qed.
Lemma same_lasting rnd respond c bs c' s' : 0 <= rnd <= 255 -> Forall carried (c_actions c) ->
  command_ser (onward rnd respond c) = Ok bs -> alp_parse (zlen bs) (stream_of bs) = Ok (c', s') -> c_actions c' = c_actions c ->
  Forall lasting (c_actions c).
Proof.
  intros R F E A Q. destruct (existsb is_forward (c_actions c)) eqn:N.
  { rewrite (forward_raises rnd respond c R F N) in E. discriminate. }
  destruct (emits_zlen _ _ _ (onward_emits rnd respond c R F N) E) as [_ B].
  destruct (alp_parsed (zlen bs) (stream_of bs) c' s' eq_refl A) as (l & Rd & _ & _ & _ & ->). rewrite command_of_actions in Q.
  unfold stream_of in Rd. rewrite B in Rd.
  destruct l as [|x l].
  { rewrite <- Q. constructor. }
  cbn [map] in Rd. inversion Rd as [|? ? s1 ? ? E1 R1]; subst. apply tag_read in E1 as [Ex B1]; [|exact R]. injection Ex as ->.
  cbn [filter] in Q. change (plain (mkAction (TagReqAct respond) (TagRequest (mkTag rnd)))) with false in Q. cbv iota in Q.
  pose proof (reads_size _ _ _ R1) as Sz. pose proof (full_plain l) as Fp. rewrite Q in Fp. rewrite B1 in Sz.
  destruct (all_written _ F N) as [W1 W2]. assert (V : Forall writable (c_actions c)) by (apply W2; lia).
  destruct (writable_no_forward _ F V) as [_ Fl]. rewrite Fl in B1. exact (read_lasting _ F V s1 l s' B1 R1 Q).
Qed.
Lemma lasting_hop l : Forall carried l -> Forall lasting l -> map action_hop l = l /\ Forall writable l.
Proof.
  induction 1 as [|a l C H IH]; intros L; [split; [reflexivity | constructor]|]. inversion L as [|? ? La Ll]; subst.
  destruct (IH Ll) as [E V]. cbn [map]. rewrite E. rewrite (proj2 (hop_same_iff a C (proj1 La)) La).
  split; [reflexivity | constructor; [exact (proj1 La) | exact V]].
Qed.

(** ** What is stated *)
Lemma relay_made rnd respond c : received c ->
  passed_on rnd respond c = Ok (mkCommand (c_actions c) None true (Some rnd) respond false None).
Proof. intros H. apply passed_on_made. apply received_carried. exact H. Qed.
Lemma relay_hop rnd respond c : received c -> 0 <= rnd <= 255 -> Forall writable (c_actions c) ->
  exists d bs, passed_on rnd respond c = Ok d /\ command_ser d = Ok bs
  /\ accepts_aligned (alp_parse (zlen bs)) (bytes_bits bs)
       (mkCommand (map action_hop (c_actions c)) None false (Some rnd) respond false None).
Proof.
  intros H R V. pose proof (received_carried c H) as F. destruct (hop_command rnd respond c R F V) as (bs & E & A).
  exists (onward rnd respond c), bs. rewrite passed_on_made by exact F. auto.
Qed.
Lemma stream_accepts bs c : accepts_aligned (alp_parse (zlen bs)) (bytes_bits bs) c ->
  exists s', alp_parse (zlen bs) (stream_of bs) = Ok (c, s') /\ bits s' = [].
Proof.
  intros A. specialize (A 0%nat [] eq_refl). rewrite app_nil_r in A. unfold stream_of. rewrite A. eexists. split; reflexivity.
Qed.
Lemma relay_same_iff c : received c -> ((exists c', hop c c' /\ c_actions c' = c_actions c) <-> Forall lasting (c_actions c)).
Proof.
  intros H. pose proof (received_carried c H) as F. split.
  - intros (c' & (rnd & respond & d & bs & s' & R & M & E & A) & Q). rewrite passed_on_made in M by exact F. injection M as <-.
    exact (same_lasting rnd respond c bs c' s' R F E A Q).
  - intros L. destruct (lasting_hop _ F L) as [E V]. destruct (hop_command 0 true c) as (bs & Eb & A); [lia | exact F | exact V|].
    destruct (stream_accepts _ _ A) as (s' & A' & _). eexists. split.
    + exists 0, true, (onward 0 true c), bs, s'. refine (conj _ (conj _ (conj Eb A'))); [lia | apply passed_on_made; exact F].
    + cbn [c_actions seen]. exact E.
Qed.
Lemma relay_forward rnd respond c : received c -> 0 <= rnd <= 255 -> existsb is_forward (c_actions c) = true ->
  exists d, passed_on rnd respond c = Ok d /\ command_ser d = Err AttributeError.
Proof.
  intros H R N. pose proof (received_carried c H) as F. exists (onward rnd respond c). split; [apply passed_on_made; exact F|].
  apply forward_raises; assumption.
Qed.
Lemma hop_received c c' : hop c c' -> received c'.
Proof. intros (rnd & respond & d & bs & s' & _ & _ & _ & A). exists (zlen bs), (stream_of bs), s'. split; [reflexivity | exact A]. Qed.
Lemma hop_actions c c' : received c -> Forall writable (c_actions c) -> hop c c' ->
  c_actions c' = map action_hop (c_actions c) /\ Forall writable (c_actions c').
Proof.
  intros H V (rnd & respond & d & bs & s' & R & M & E & A). pose proof (received_carried c H) as F.
  rewrite passed_on_made in M by exact F. injection M as <-. destruct (hop_command rnd respond c R F V) as (bs' & E' & A').
  rewrite E in E'. injection E' as <-. destruct (stream_accepts _ _ A') as (s2 & A2 & _). rewrite A in A2. injection A2 as -> _.
  cbn [c_actions seen]. split; [reflexivity|]. rewrite Forall_map. eapply Forall_impl; [|exact V]. apply hop_writable.
Qed.
Lemma hops_exist n : forall c, received c -> Forall writable (c_actions c) -> exists c', hops n c c'.
Proof.
  induction n as [|n IH]; intros c H V; [exists c; reflexivity|]. pose proof (received_carried c H) as F.
  destruct (hop_command 0 true c) as (bs & E & A); [lia | exact F | exact V|]. destruct (stream_accepts _ _ A) as (s' & A' & _).
  assert (Hp : hop c (seen 0 true (map action_hop (c_actions c)))).
  { exists 0, true, (onward 0 true c), bs, s'. refine (conj _ (conj _ (conj E A'))); [lia | apply passed_on_made; exact F]. }
  destruct (IH _ (hop_received _ _ Hp) (proj2 (hop_actions c _ H V Hp))) as (c' & Hc). exists c'. cbn [hops]. eauto.
Qed.
Lemma hops_actions n : forall c c', received c -> Forall writable (c_actions c) -> hops n c c' ->
  c_actions c' = map (iter action_hop n) (c_actions c) /\ received c' /\ Forall writable (c_actions c').
Proof.
  induction n as [|n IH]; intros c c' H V Hh; cbn [hops] in Hh.
  - subst c'. cbn [iter]. rewrite map_id. auto.
  - destruct Hh as (d & Hp & Hd). destruct (hop_actions c d H V Hp) as [E Vd].
    destruct (IH d c' (hop_received _ _ Hp) Vd Hd) as (E2 & K). rewrite E, map_map in E2. split; [exact E2 | exact K].
Qed.
Lemma relay_hops n c c' : received c -> Forall lasting (c_actions c) -> hops n c c' -> c_actions c' = c_actions c.
Proof.
  revert c. induction n as [|n IH]; intros c H L Hh; cbn [hops] in Hh; [congruence|].
  destruct Hh as (d & Hp & Hd). pose proof (received_carried c H) as F. destruct (lasting_hop _ F L) as [E V].
  destruct (hop_actions c d H V Hp) as [E2 _]. rewrite E in E2. rewrite (IH d); [exact E2 | exact (hop_received _ _ Hp) | rewrite E2; exact L | exact Hd].
Qed.

(** ** Where it ends *)
Lemma iter_add {A} (f : A -> A) n m x : iter f (n + m) x = iter f m (iter f n x).
Proof. revert x. induction n as [|n IH]; intros x; [reflexivity|]. cbn [Nat.add iter]. apply IH. Qed.
Lemma iter_fixed {A} (f : A -> A) n x : f x = x -> iter f n x = x.
Proof. intros E. induction n as [|n IH]; [reflexivity|]. cbn [iter]. rewrite E. exact IH. Qed.
(** numbers that were read *)
Definition was_read (c : CT) : Prop := exists c0, ct_wf c0 /\ c = of_nbid (nbid_hop (nbid c0)).
Lemma ct_end c n : was_read c -> (4 <= n)%nat -> iter (fun c => of_nbid (nbid_hop (nbid c))) n c = of_nbid (nbid_end (nbid c)).
Proof.
  intros (c0 & W & ->) L. pose proof end_check_true as T. unfold end_check in T. rewrite forallb_forall in T.
  specialize (T c0 (ct_all_complete c0 W)). cbv zeta in T. apply andb_true_iff in T as [T1 T2]. apply ct_eqb_eq in T1, T2.
  replace n with (4 + (n - 4))%nat by lia. rewrite iter_add, iter_fixed; [exact T1 | exact T2].
Qed.
Definition addr_read (a : Addressee) : Prop := match ad_id a with IdCT c => was_read c | _ => True end.
Lemma compress_read v c : 0 <= v < 256 -> ct_compress v true = Ok (Some c) -> was_read c.
Proof.
  intros R E. exists (of_nbid v). assert (W : ct_wf (of_nbid v)).
  { unfold ct_wf, of_nbid. cbn [ct_exp ct_mant]. pose proof (Z.mod_pos_bound v 32). pose proof (Z.div_pos v 32).
    pose proof (Z.div_lt_upper_bound v 32 8). lia. }
  split; [exact W|]. pose proof (compress_hop _ W) as K. replace (nbid_byte (of_nbid v)) with v in K.
  - rewrite E in K. congruence.
  - unfold nbid_byte, of_nbid. cbn [ct_exp ct_mant]. pose proof (Z.div_mod v 32). lia.
Qed.
Lemma post_addr_read : post addr_read addr_parse.
Proof.
  intros s a s' H. unfold addr_parse in H.
  apply bindp_inv in H as (u & s1 & _ & H). apply bindp_inv in H as (v & s2 & _ & H).
  apply bindp_inv in H as (t & s3 & _ & H). apply bindp_inv in H as (v2 & s4 & _ & H).
  apply bindp_inv in H as (m & s5 & _ & H). apply bindp_inv in H as (cl & s6 & _ & H). cbv zeta in H.
  apply bindp_inv in H as (i & s7 & Hi & H). apply bindp_inv in H as (i2 & s8 & Hi2 & H).
  apply lift_inv in H as [H _]. unfold mk_addr in H. apply validated_inv in H as [H <-]. unfold addr_read. cbn [ad_id].
  destruct i2 as [| |c]; try exact I. destruct t; cbn [addr_id_length Nat.ltb Nat.leb Nat.mul Nat.add] in *;
    try (apply ret_inv in Hi2 as [Hi2 _]; subst i; first [apply ret_inv in Hi as [Hi _] | apply bindp_inv in Hi as (? & ? & _ & Hi); apply ret_inv in Hi as [Hi _]]; discriminate).
  apply bindp_inv in Hi as (w & s9 & Hw & Hi). apply ret_inv in Hi as [Hi _]. subst i. apply read_uint_inv in Hw.
  apply bindp_inv in Hi2 as (oc & s10 & Hc & Hi2). apply lift_inv in Hc as [Hc _]. apply ret_inv in Hi2 as [Hi2 _].
  destruct oc as [c'|]; [|discriminate]. injection Hi2 as ->. eapply compress_read; [|exact Hc].
  destruct Hw as [Hw _]. change (2 ^ Z.of_nat 8) with 256 in Hw. exact Hw.
Qed.
Definition action_read (a : option Action) : Prop :=
  match a with
  | Some a => match a_op a with IndirectForward (mkIndirect _ (Some x)) => addr_read x | _ => True end
  | None => True
  end.
Lemma regular_read {A} b7 b6 (p : P A) op : (forall x, action_read (Some (mkAction (Regular b7 b6) (op x)))) -> post action_read (parse_regular b7 b6 p op).
Proof. intros K. unfold parse_regular. eapply (post_bind (fun _ => True)); [apply post_true|]. intros x _. post1. act. apply post_ret. apply K. Qed.
Ltac skip1 := eapply (post_bind (fun _ => True)); [apply post_true | intros ? _].
Lemma post_action_read : post action_read parse_action.
Proof.
  unfold parse_action. do 3 post1.
  repeat match goal with |- post _ (if ?b then _ else _) => destruct b end;
    try (apply regular_read; intros x; exact I); try apply post_raise.
  - unfold parse_status_action. post1; [post1|]. post1; [|apply post_ret; exact I]. post1. post1.
    post1; [post1|]. post1; [|post1; [|post1]]; repeat first [progress (post1; act) | skip1]; apply post_ret; try act; exact I.
  - unfold parse_tag_response_action. post1. post1. post1. act. apply post_ret. exact I.
  - unfold parse_forward_action. post1; [post1|]. post1. post1. skip1. post1. act. apply post_ret. exact I.
  - unfold parse_indirect_forward_action. post1.
    apply (post_bind (fun o => match o with Some x => addr_read x | None => True end)).
    { post1; [post_use post_addr_read; apply post_ret; assumption | apply post_ret; exact I]. }
    intros o W. post1. post1. act. apply post_ret. match goal with H : mk_indirect _ _ = Ok _ |- _ => unfold mk_indirect in H; val H end.
    cbn [action_read a_op]. destruct o; [exact W | exact I].
  - unfold parse_tag_request_action. post1; [post1|]. post1. post1. post1. act. apply post_ret. exact I.
Qed.
Lemma reads_read s l s' : reads s l s' -> Forall action_read l.
Proof. induction 1; constructor; [eapply post_action_read; eassumption | assumption]. Qed.
Lemma received_read c : received c -> Forall (fun a => action_read (Some a)) (c_actions c).
Proof.
  intros (n & s & s' & Hs & E). destruct (alp_parsed n s c s' Hs E) as (l & R & _ & _ & _ & ->). rewrite command_of_actions.
  apply reads_read in R. rewrite Forall_map in R. rewrite Forall_forall in *. intros a I. apply filter_In in I as [I _]. exact (R a I).
Qed.
Lemma addr_iter n : forall ac t c m, iter addr_hop n (mkAddr ac t (IdCT c) m) = mkAddr ac t (IdCT (iter (fun c => of_nbid (nbid_hop (nbid c))) n c)) m.
Proof. induction n as [|n IH]; intros ac t c m; [reflexivity|]. cbn [iter]. unfold addr_hop at 2. cbn [ad_id ad_access_class ad_id_type ad_nls]. apply IH. Qed.
Lemma action_iter n : forall k f x, iter action_hop n (mkAction k (IndirectForward (mkIndirect f (Some x))))
  = mkAction k (IndirectForward (mkIndirect f (Some (iter addr_hop n x)))).
Proof. induction n as [|n IH]; intros k f x; [reflexivity|]. cbn [iter]. unfold action_hop at 2. cbn [a_op a_kind]. apply IH. Qed.
Lemma action_ends n a : action_read (Some a) -> (4 <= n)%nat -> iter action_hop n a = action_end a.
Proof.
  intros W L. destruct a as [k o]. cbn [action_read a_op a_kind] in *.
  assert (X : action_hop (mkAction k o) = mkAction k o -> iter action_hop n (mkAction k o) = mkAction k o) by apply iter_fixed.
  unfold action_end. cbn [a_op a_kind].
  destruct o as [| | | | | | | | | | | |[f [[ac t i m]|]]|]; try (apply X; reflexivity).
  rewrite action_iter. destruct i as [|z|c]; try (rewrite iter_fixed by reflexivity; reflexivity).
  rewrite addr_iter, ct_end; [reflexivity | exact W | exact L].
Qed.
Lemma relay_end n c c' : received c -> Forall writable (c_actions c) -> (4 <= n)%nat -> hops n c c' ->
  c_actions c' = map action_end (c_actions c).
Proof.
  intros H V L Hh. destruct (hops_actions n c c' H V Hh) as (E & _). rewrite E. apply map_ext_in. intros a I.
  pose proof (received_read c H) as F. rewrite Forall_forall in F. apply action_ends; [exact (F a I) | exact L].
Qed.
