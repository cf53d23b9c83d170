(** Serializing received commands; factories. *)
From Coq Require Import ZifyBool ZifyNat.
From Verif Require Export LParsed.
Ltac Zify.zify_post_hook ::= Z.div_mod_to_equations.

(** ** Exactness of the action loop *)
Lemma reads_shift s l s' : reads s l s' -> (pos s mod 8 = 0)%nat ->
  exists d, bits s = d ++ bits s' /\ pos s' = (pos s + length d)%nat /\ (length d mod 8 = 0)%nat
            /\ (8 * length l <= length d)%nat.
Proof.
  induction 1 as [s|s a s1 l s2 Ha Hr IH]; intros Hs.
  - exists []. cbn [app length]. repeat split; lia.
  - pose proof (good_action 0 s Hs) as G. rewrite Ha in G. destruct G as (c & Hb & Hp & [Q1 Q2] & _).
    destruct IH as (d & Hb2 & Hp2 & Q3 & Q4); [lia|]. exists (c ++ d). rewrite app_length, Hb, Hb2, app_assoc.
    cbn [length]. repeat split; lia.
Qed.
Lemma actions_reads s l s' : reads s l s' -> (pos s mod 8 = 0)%nat ->
  forall fuel parsed total, (length l < fuel)%nat ->
    total = parsed + Z.of_nat (pos s' - pos s) / 8 -> parse_actions fuel parsed total s = Ok (l, s').
Proof.
  induction 1 as [s|s a s1 l s2 Ha Hr IH]; intros Hs fuel parsed total Hf Ht;
    (destruct fuel as [|fuel]; [cbn [length] in Hf; lia|]); cbn [parse_actions].
  - replace (parsed <? total) with false by lia. reflexivity.
  - pose proof (good_action 0 s Hs) as G. rewrite Ha in G. destruct G as (c & Hb & Hp & [Q1 Q2] & _).
    assert (Hs1 : (pos s1 mod 8 = 0)%nat) by lia.
    destruct (reads_shift _ _ _ Hr Hs1) as (d & _ & Hp2 & Q3 & _).
    replace (parsed <? total) with true by lia.
    unfold bindp at 1. rewrite bytepos_ok by exact Hs. unfold bindp at 1. rewrite Ha.
    unfold bindp at 1. rewrite bytepos_ok by exact Hs1. unfold bindp at 1.
    rewrite IH; [reflexivity | exact Hs1 | cbn [length] in Hf; lia | lia].
Qed.
Lemma alp_reads s l s' : reads s l s' -> (pos s mod 8 = 0)%nat ->
  alp_parse (Z.of_nat (pos s' - pos s) / 8) s =
  match mk_command 0 l false None true with Ok c => Ok (c, s') | Err e => Err e end.
Proof.
  intros R Hs. destruct (reads_shift _ _ _ R Hs) as (d & Hb & Hp & Q & L). unfold alp_parse.
  destruct (_ =? 0) eqn:E.
  - assert (length l = 0)%nat by lia. destruct l; [|discriminate].
    assert (s' = s). { inversion R; subst; reflexivity. } subst s'.
    unfold bindp, ret, lift. reflexivity.
  - unfold bindp. rewrite (actions_reads _ _ _ R Hs); [reflexivity | | lia].
    rewrite Hb, app_length. lia.
Qed.
(** a command with two tag actions or two interface statuses is refused *)
Lemma alp_two s l s' : reads s (map Some l) s' -> (pos s mod 8 = 0)%nat ->
  alp_parse (Z.of_nat (pos s' - pos s) / 8) s =
  if (length (filter is_tag l) <=? 1)%nat && (length (filter is_status l) <=? 1)%nat
  then Ok (command_of false None true l, s') else Err ParseError.
Proof.
  intros R Hs. rewrite (alp_reads _ _ _ R Hs).
  pose proof (reads_parsed _ _ _ R) as F.
  assert (TT : Forall tag_typed (somes (map Some l))).
  { eapply Forall_impl; [apply parsed_tag_typed|]. apply (somes_forall act_parsed). exact F. }
  destruct (_ && _) eqn:E.
  - rewrite mk_command_parsed; [rewrite somes_map; reflexivity | exact TT | | | apply has_none_map];
      rewrite somes_map; unfold one_tag, one_status; lia.
  - destruct (mk_command_spec 0 (map Some l) false None true TT) as (K & _). rewrite K; [reflexivity|].
    rewrite somes_map. unfold one_tag, one_status. intros (X1 & _ & X2). specialize (X1 eq_refl). lia.
Qed.
(** an action status makes the command invalid *)
Lemma alp_action_status s l s' : reads s l s' -> In None l -> (pos s mod 8 = 0)%nat ->
  exists e, alp_parse (Z.of_nat (pos s' - pos s) / 8) s = Err e /\ (e = ValueError \/ e = ParseError).
Proof.
  intros R I Hs. rewrite (alp_reads _ _ _ R Hs).
  pose proof (reads_parsed _ _ _ R) as F.
  assert (TT : Forall tag_typed (somes l)).
  { eapply Forall_impl; [apply parsed_tag_typed|]. apply (somes_forall act_parsed). exact F. }
  destruct (mk_command_spec 0 l false None true TT) as (K1 & K2 & _).
  assert (N : has_none l = true) by (apply existsb_exists; exists None; auto).
  destruct (le_dec (length (filter is_tag (somes l))) 1) as [L1|L1];
  destruct (le_dec (length (filter is_status (somes l))) 1) as [L2|L2].
  1: exists ValueError; rewrite K2; [auto | | exact N]; unfold one_tag, one_status; split; [auto | split; [congruence | exact L2]].
  all: exists ParseError; rewrite K1; [auto|]; unfold one_tag, one_status; intros (X1 & _ & X2); specialize (X1 eq_refl); lia.
Qed.

(** ** Incoming actions are read as specified *)
Lemma status_action_accepts len s : 0 < len <= 255 -> status_wf s -> st_rx_level s <= 127 -> addr_stable (st_addressee s) ->
  accepts parse_action (status_bits len s) (Some (mkAction (StatusAct 1) (InterfaceStatus (mkISO 215 (Some s))))).
Proof.
  intros H1 H2 H3 H4. unfold status_bits.
  pose proof (parse_action_op false true (InterfaceStatus (mkISO 215 (Some s)))
    (Zbits 8 215 ++ Zbits 8 len ++ status_layout s)
    (Some (mkAction (StatusAct 1) (InterfaceStatus (mkISO 215 (Some s)))))) as K.
  cbn [opcode Z.eqb Pos.eqb] in K. apply K. clear K. unfold parse_status_action.
  eapply accepts_bind; [apply accepts_uint; pow2; lia|].
  eapply accepts_bind; [apply accepts_uint; pow2; lia|].
  cbn [Z.eqb Pos.eqb]. replace (0 <? len) with true by lia.
  eapply accepts_bind_l; [eapply accepts_bind_l; [apply status_accepts; assumption | apply accepts_ret]|].
  eapply accepts_bind0; [apply accepts_lift; apply validated_ok; reflexivity|].
  eapply accepts_bind0; [apply accepts_lift; reflexivity | apply accepts_ret].
Qed.
Lemma incoming_accepts l a : incoming l a -> accepts parse_action l (Some a).
Proof.
  destruct 1 as [g r o W H|r i W S|v r i W S|r t W|e x t W|len s H1 H2 H3 H4].
  - unfold act_bits.
    assert (K : (exists d, o = ReadFileData d) \/ (exists d, o = WriteFileData d) \/ (exists q, o = BreakQuery q /\ query_supported q)
      \/ (exists f, o = CreateNewFile f) \/ (exists d, o = ReturnFileData d (try_parse_system_file d)) \/ (exists f, o = ReturnFileHeader f)).
    { destruct H as [H | (d & _ & [-> | ->])]; [|eauto 8 | eauto 8].
      destruct o; try contradiction; eauto 8. destruct W as [_ ->]. eauto 8. }
    destruct K as [(d & ->) | [(d & ->) | [(q & -> & S) | [(f & ->) | [(d & ->) | (f & ->)]]]]];
      apply parse_action_op; cbn [opcode Z.eqb Pos.eqb operand_layout op_wf] in *.
    + apply regular_accepts. apply dr_accepts; exact W.
    + apply regular_accepts. apply data_accepts; exact W.
    + apply regular_accepts. apply query_accepts; assumption.
    + apply regular_accepts. apply fho_accepts; exact W.
    + destruct W as [W _]. apply (regular_accepts g r data_parse mk_return_file_data). apply data_accepts; exact W.
    + apply regular_accepts. apply fho_accepts; exact W.
  - apply (action_accepts (mkAction (Regular false r) (Forward i))). repeat split; assumption.
  - apply (action_accepts (mkAction (IndFwdAct v r) (IndirectForward i))). split; assumption.
  - apply (action_accepts (mkAction (TagReqAct r) (TagRequest t))). split; [assumption | exact I].
  - apply (action_accepts (mkAction (TagRespAct e x) (TagResponse t))). split; [assumption | exact I].
  - apply status_action_accepts; assumption.
Qed.
Lemma incoming_whole l a : incoming l a -> (length l mod 8 = 0)%nat.
Proof.
  intros H. pose proof (incoming_accepts _ _ H) as A. pose proof (good_action 0 (St 0 (l ++ [])) eq_refl) as G.
  rewrite A in G. destruct G as (c & Hb & Hp & [Q _] & _). cbn [pos bits] in *. lia.
Qed.
Lemma incoming_reads ls acts : Forall2 incoming ls acts -> forall ps rest, 
  reads (St ps (concat ls ++ rest)) (map Some acts) (St (ps + length (concat ls)) rest).
Proof.
  induction 1 as [|l a ls acts H Hs IH]; intros ps rest; cbn [concat map].
  - cbn [app length]. rewrite Nat.add_0_r. constructor.
  - rewrite app_length, Nat.add_assoc, <- app_assoc. econstructor; [|apply IH].
    apply incoming_accepts. exact H.
Qed.
Lemma incoming_command ls acts : Forall2 incoming ls acts -> one_tag acts -> one_status acts ->
  accepts_aligned (alp_parse (zlen (concat ls) / 8)) (concat ls) (command_of false None true acts).
Proof.
  intros F T S ps rest Hps. pose proof (incoming_reads ls acts F ps rest) as R.
  pose proof (alp_two _ _ _ R) as K. cbn [pos] in K. specialize (K Hps).
  replace (Z.of_nat (ps + length (concat ls) - ps)) with (zlen (concat ls)) in K by (unfold zlen; lia).
  rewrite K. unfold one_tag, one_status in *. replace (_ && _) with true by lia. reflexivity.
Qed.

(** ** Serializing them again *)
Lemma contribution_emits l a : incoming l a -> is_forward a = false -> is_tag a = false ->
  emits (action_ser a) (contribution a).
Proof.
  destruct 1 as [g r o W H|r i W S|v r i W S|r t W|e x t W|len s H1 H2 H3 H4]; intros Nf Nt; try discriminate.
  - unfold contribution. cbn [a_kind a_op].
    assert (D : forall d, (o = WriteFileData d \/ exists p, o = ReturnFileData d p) ->
       emits (action_ser (mkAction (Regular g r) o)) (if d_data d then [g; r] ++ Zbits 6 (opcode o) else act_bits g r o)).
    { intros d Ho. destruct (empty_data_ser g r o d W Ho) as (bs & E & B & L). exists bs. auto. }
    assert (N : op_plain o -> emits (action_ser (mkAction (Regular g r) o)) (act_bits g r o)).
    { intros Hp. apply act_emits; assumption. }
    destruct o; try (apply N; exact I); try (destruct H as [H | (d & _ & [H | H])]; try contradiction; discriminate).
    + apply D. left; reflexivity.
    + apply D. right; eauto.
  - unfold contribution. cbn [a_kind a_op].
    apply act_emits; [exact W | exact I].
  - unfold contribution, action_ser. cbn [a_kind a_op op_code op_ser].
    unfold iso_ser. cbn [iso_id iso_status].
    apply (emits_app _ _ ([false; true] ++ Zbits 6 34)); [apply emits_by_check; reflexivity|].
    apply emits_app; [apply emits_by_check; reflexivity|]. apply status_emits. exact H2.
Qed.
Lemma contribution_len l a : incoming l a -> is_forward a = false ->
  (length (contribution a) <= length l)%nat /\ (length (contribution a) = length l <-> reserializable a)
  /\ (reserializable a -> contribution a = l).
Proof.
  destruct 1 as [g r o W H|r i W S|v r i W S|r t W|e x t W|len s H1 H2 H3 H4]; intros Nf; try discriminate.
  - unfold contribution, reserializable. cbn [a_kind a_op].
    assert (D : forall d n, n = [g; r] ++ Zbits 6 (opcode o) -> (o = WriteFileData d \/ exists p, o = ReturnFileData d p) ->
      (length (if d_data d then n else act_bits g r o) <= length (act_bits g r o))%nat
      /\ (length (if d_data d then n else act_bits g r o) = length (act_bits g r o) <-> d_data d <> [])
      /\ (d_data d <> [] -> (if d_data d then n else act_bits g r o) = act_bits g r o)).
    { intros d n -> Ho. assert (L : (8 < length (act_bits g r o))%nat).
      { unfold act_bits. rewrite !app_length, Zbits_length. cbn [length].
        destruct Ho as [-> | (p & ->)]; cbn [operand_layout]; unfold data_layout, off_layout;
        rewrite !app_length, Zbits_length; lia. }
      destruct (d_data d) as [|b bs].
      - rewrite app_length, Zbits_length. cbn [length]. split; [lia|]. split; [|congruence].
        split; [lia | congruence].
      - split; [lia|]. split; [|reflexivity]. split; [discriminate | reflexivity]. }
    destruct o; try (split; [lia | split; [tauto | reflexivity]]).
    + apply D; [reflexivity | left; reflexivity].
    + apply D; [reflexivity | right; eauto].
  - unfold contribution, reserializable. cbn [a_kind a_op]. split; [lia | split; [tauto | reflexivity]].
  - unfold contribution, reserializable. cbn [a_kind a_op length].
    pose proof (act_bits_len r false (TagRequest t)). split; [lia|]. split; [|contradiction]. split; [lia | contradiction].
  - unfold contribution, reserializable. cbn [a_kind a_op length].
    pose proof (act_bits_len e x (TagResponse t)). split; [lia|]. split; [|contradiction]. split; [lia | contradiction].
  - unfold contribution, reserializable, status_bits. cbn [a_kind a_op].
    rewrite !app_length, !Zbits_length. cbn [length]. split; [lia|]. split; [|contradiction]. split; [lia | contradiction].
Qed.
Lemma reser_emits ls acts : Forall2 incoming ls acts -> one_status acts -> existsb is_forward acts = false ->
  emits (command_ser (command_of false None true acts))
        (flat_map contribution (filter is_status acts) ++ flat_map contribution (filter plain acts)).
Proof.
  intros F S N. unfold command_ser. rewrite command_of_actions, command_of_status.
  replace (c_generate _) with false
    by (unfold command_of; destruct (match filter is_tag acts with [] => _ | _ :: _ => _ end) as [[[? ?] ?] ?]; reflexivity).
  assert (E : forall a, In a acts -> is_tag a = false -> emits (action_ser a) (contribution a)).
  { intros a I T. assert (Nf : is_forward a = false).
    { destruct (is_forward a) eqn:Ef; [|reflexivity].
      assert (X : existsb is_forward acts = true) by (apply existsb_exists; eauto). congruence. }
    revert I. clear S N. induction F as [|l b ls acts H Hs IH]; [intros []|]. intros [-> | I]; [|auto].
    eapply contribution_emits; eassumption. }
  change (flat_map contribution (filter is_status acts) ++ flat_map contribution (filter plain acts))
    with ([] ++ (flat_map contribution (filter is_status acts) ++ flat_map contribution (filter plain acts))).
  apply emits_app; [apply emits_nil|]. apply emits_app.
  - unfold one_status in S. destruct (filter is_status acts) as [|a [|b r]] eqn:Es; cbn [length] in S; [apply emits_nil | | lia].
    cbn [hd_error flat_map]. rewrite app_nil_r. destruct (filter_hd _ _ _ _ Es) as [Sa Ia]. apply E; [exact Ia|].
    unfold is_status, is_tag in *. destruct (a_kind a); discriminate || reflexivity.
  - apply emits_rconcat. apply Forall_forall. intros a I. apply filter_In in I as [I Pl]. apply E; [exact I|].
    unfold plain in Pl. destruct (is_tag a); [discriminate | reflexivity].
Qed.
Lemma contribution_sum acts : (forall a, In a acts -> is_tag a = true -> contribution a = []) ->
  length (flat_map contribution (filter is_status acts) ++ flat_map contribution (filter plain acts))
  = length (flat_map contribution acts).
Proof.
  induction acts as [|a acts IH]; intros H; [reflexivity|]. cbn [filter flat_map].
  specialize (IH (fun b Ib => H b (or_intror Ib))). specialize (H a (or_introl eq_refl)).
  unfold plain at 1. destruct (is_tag a) eqn:T; destruct (is_status a) eqn:S; cbn [negb andb flat_map];
    rewrite ?app_length in *; try lia.
  rewrite H by reflexivity. cbn [app length]. lia.
Qed.
Lemma tag_contribution l a : incoming l a -> is_tag a = true -> contribution a = [].
Proof. destruct 1; cbn; intros; try discriminate; reflexivity. Qed.
Lemma reser_identity ls acts : Forall2 incoming ls acts -> one_status acts -> existsb is_forward acts = false ->
  (emits (command_ser (command_of false None true acts)) (concat ls) <-> Forall reserializable acts).
Proof.
  intros F S N. pose proof (reser_emits ls acts F S N) as E.
  assert (TC : forall a, In a acts -> is_tag a = true -> contribution a = []).
  { clear E S N. induction F as [|l b ls acts H Hs IH]; [intros a []|]. intros a [-> | I]; [|auto].
    intros T. eapply tag_contribution; eassumption. }
  pose proof (contribution_sum acts TC) as L.
  split.
  - intros E2. pose proof (emits_inj _ _ _ E E2) as Eq. rewrite Eq in L. clear E E2 Eq TC S.
    assert (K : (length (flat_map contribution acts) <= length (concat ls))%nat /\
      (length (concat ls) = length (flat_map contribution acts) -> Forall reserializable acts)).
    { clear L. revert N. induction F as [|l a ls acts H Hs IH]; intros N; [split; [cbn; lia | constructor]|].
      cbn [existsb] in N. apply orb_false_iff in N as [N1 N2]. destruct (IH N2) as [I1 I2].
      destruct (contribution_len l a H N1) as (C1 & C2 & _).
      cbn [flat_map concat]. rewrite !app_length. split; [lia|]. intros Eq. constructor; [apply C2; lia | apply I2; lia]. }
    apply K. exact L.
  - intros R.
    assert (Pl : forallb plain acts = true).
    { apply forallb_forall. intros a I. rewrite Forall_forall in R. specialize (R a I).
      unfold reserializable, plain, is_tag, is_status in *. destruct (a_kind a); try contradiction; reflexivity. }
    destruct (plain_lists _ Pl) as (_ & S1 & P1). rewrite S1, P1 in E. cbn [flat_map app] in E.
    replace (concat ls) with (flat_map contribution acts); [exact E|].
    clear E L S S1 P1 Pl TC. revert N R. induction F as [|l a ls acts H Hs IH]; intros N R; [reflexivity|].
    cbn [existsb] in N. apply orb_false_iff in N as [N1 N2]. inversion R as [|? ? R1 R2]; subst.
    destruct (contribution_len l a H N1) as (_ & _ & C3). cbn [flat_map concat]. rewrite (C3 R1), (IH N2 R2). reflexivity.
Qed.

(** ** Any parsed command *)
Definition is_ok {A} (r : res A) : bool := match r with Ok _ => true | Err _ => false end.
Lemma emits_is_ok r l : emits r l -> is_ok r = true.
Proof. intros (bs & -> & _). reflexivity. Qed.
Lemma rapp_is_ok a b : is_ok (a +++ b) = is_ok a && is_ok b.
Proof. destruct a, b; reflexivity. Qed.
Lemma rconcat_is_ok {A} (f : A -> res (list Z)) l : is_ok (rconcat (map f l)) = forallb (fun a => is_ok (f a)) l.
Proof. induction l as [|a l IH]; [reflexivity|]. cbn [map rconcat forallb]. rewrite rapp_is_ok, IH. reflexivity. Qed.
Lemma act_is_ok b7 b6 o : is_ok (yield1 (flag6 b6 (flag7 b7 0) + op_code o)) = true.
Proof. eapply emits_is_ok. apply first_byte_emits. Qed.
Lemma parsed_ser a : act_parsed a -> is_tag a = false ->
  is_ok (action_ser a) = negb (is_forward a) && negb (bodyless a).
Proof.
  destruct a as [k o]. unfold act_parsed, is_tag, is_forward, bodyless, action_ser. cbn [a_kind a_op].
  intros [W H] T. destruct k as [g r|r|v r|e|r|e x]; try discriminate.
  - rewrite rapp_is_ok, act_is_ok.
    destruct o; try contradiction; cbn [andb negb]; try (eapply emits_is_ok; apply op_emits; [exact W | exact I]); cbn [op_ser].
    + destruct (data_len _ =? 0); [reflexivity|]. eapply emits_is_ok. apply data_emits. exact W.
    + destruct (data_len _ =? 0); [reflexivity|]. eapply emits_is_ok. apply data_emits. apply W.
  - reflexivity.
  - rewrite rapp_is_ok, act_is_ok. destruct o; try contradiction. cbn [andb negb].
    eapply emits_is_ok. apply op_emits; [exact W | exact I].
  - destruct o as [| | | | | | | | |[i st]| | | |]; try contradiction. destruct H as [-> H]. rewrite rapp_is_ok.
    destruct st as [st|]; cbn [op_ser op_code]; unfold iso_ser; cbn [iso_id iso_status negb andb] in *.
    + destruct H as [-> _]. rewrite rapp_is_ok.
      destruct W as [_ W]. cbn [iso_status] in W.
      rewrite (emits_is_ok _ _ (status_emits _ W)). reflexivity.
    + rewrite rapp_is_ok. cbn [is_ok]. rewrite !andb_false_r. reflexivity.
Qed.
Lemma forallb_ext_in {A} (f g : A -> bool) l : (forall a, In a l -> f a = g a) -> forallb f l = forallb g l.
Proof.
  induction l as [|a l IH]; intros H; [reflexivity|]. cbn [forallb]. rewrite (H a) by (left; reflexivity).
  rewrite IH; [reflexivity|]. intros b I. apply H. right. exact I.
Qed.
Lemma reser_total n s c s' : (pos s mod 8 = 0)%nat -> alp_parse n s = Ok (c, s') ->
  ((exists bs, command_ser c = Ok bs) <->
   existsb is_forward (c_actions c) = false /\ match c_status c with Some a => bodyless a = false | None => True end).
Proof.
  intros Hs E. destruct (alp_parsed n s c s' Hs E) as (l & _ & F & T & S & ->). rewrite Forall_forall in F.
  rewrite command_of_actions, command_of_status.
  assert (K : (exists bs, command_ser (command_of false None true l) = Ok bs) <->
     is_ok (command_ser (command_of false None true l)) = true).
  { destruct (command_ser _); cbn [is_ok]; split; [reflexivity | eauto | intros [? ?]; discriminate | discriminate]. }
  rewrite K. clear K E. unfold command_ser. rewrite command_of_actions, command_of_status.
  replace (c_generate _) with false
    by (unfold command_of; destruct (match filter is_tag l with [] => _ | _ :: _ => _ end) as [[[? ?] ?] ?]; reflexivity).
  rewrite !rapp_is_ok, rconcat_is_ok. cbn [is_ok andb].
  assert (B : forall a, In a (filter plain l) -> bodyless a = false).
  { intros a I. apply filter_In in I as [I P]. destruct (F a I) as [_ H]. unfold plain, is_status, is_tag, bodyless in *.
    destruct (a_kind a), (a_op a); try contradiction; try reflexivity. destruct H as [-> _]. discriminate. }
  rewrite (forallb_ext_in (fun a => is_ok (action_ser a)) (fun a => negb (is_forward a))).
  2:{ intros a I. pose proof (B a I) as Ba. apply filter_In in I as [I P]. rewrite parsed_ser; [rewrite Ba, andb_true_r; reflexivity | auto |].
      unfold plain in P. destruct (is_tag a); [discriminate | reflexivity]. }
  assert (X : forall m, forallb (fun a => negb (is_forward a)) m = negb (existsb is_forward m)).
  { induction m as [|a m IH]; [reflexivity|]. cbn [forallb existsb]. rewrite IH, negb_orb. reflexivity. }
  rewrite X. destruct (filter is_status l) as [|a r] eqn:Es; cbn [hd_error is_ok andb].
  - rewrite negb_true_iff. tauto.
  - destruct (filter_hd _ _ _ _ Es) as [Sa Ia]. rewrite parsed_ser; [|auto |].
    2:{ unfold is_status, is_tag in *. destruct (a_kind a); discriminate || reflexivity. }
    replace (is_forward a) with false.
    2:{ unfold is_status, is_forward in *. destruct (a_kind a); discriminate || reflexivity. }
    cbn [negb andb]. rewrite andb_true_iff, !negb_true_iff. tauto.
Qed.

(** ** Factories *)
Lemma factory_creates rnd tag t conf o tagv : 0 <= tagv <= 255 ->
  tagv = (match tag with Some x => x | None => rnd end) -> conf_ok t conf -> op_wf o -> op_plain o ->
  creates (factory rnd tag t conf (Ok o)) tagv t conf (act_bits false false o).
Proof.
  intros Ht Et Hc W Np. unfold creates, factory.
  assert (M : mk_command rnd [] true tag true = Ok (mkCommand [] None true (Some tagv) true false None)).
  { subst tagv. unfold mk_command. cbn [command_loop rbind c_tag]. destruct tag; reflexivity. }
  rewrite M. cbn [rbind]. clear M.
  set (c0 := mkCommand [] None true (Some tagv) true false None).
  assert (FW : exists c1, add_forward_action c0 t conf = Ok c1 /\ c_tag c1 = Some tagv /\ c_generate c1 = true /\ c_respond c1 = true
     /\ c_status c1 = None /\ emits (rconcat (map action_ser (c_actions c1))) (forward_bits t conf)).
  { unfold forward_bits, forward_conf. unfold conf_ok in Hc.
    assert (G : forall i, ic_wf i -> emits (rconcat (map action_ser [mkAction (Regular false false) (Forward i)]))
       (act_bits false false (Forward i))).
    { intros i Wi. rewrite <- (app_nil_r (act_bits _ _ _)). cbn [map rconcat]. apply emits_app; [|apply emits_nil].
      apply act_emits; [exact Wi | exact I]. }
    destruct t; cbn [add_forward_action].
    - destruct conf; [tauto|]. eexists. repeat split. apply emits_nil.
    - eexists. repeat split. apply (G (mkIC IF_SERIAL None)). exact I.
    - eexists. repeat split. apply (G (mkIC IF_ABP conf)). destruct conf; [apply Hc | exact I].
    - eexists. repeat split. apply (G (mkIC IF_OTAA conf)). destruct conf; [apply Hc | exact I].
    - destruct conf as [c|].
      + eexists. repeat split. apply (G (mkIC IF_D7ASP (Some c))). apply Hc.
      + eexists. repeat split. apply (G (mkIC IF_D7ASP (Some (CfgD7 conf_default)))).
        cbn. unfold conf_wf, ct_wf, addr_wf. cbn. lia. }
  destruct FW as (c1 & -> & H1 & H2 & H3 & H4 & H5). cbn [rbind].
  replace (mk_action (Regular false false) o) with (Ok (mkAction (Regular false false) o)) by reflexivity.
  cbn [rbind]. exists (add_action c1 (mkAction (Regular false false) o)). unfold add_action.
  cbn [c_tag c_generate]. refine (conj eq_refl (conj H1 (conj H2 _))).
  unfold command_ser. cbn [c_generate c_tag c_respond c_status c_actions]. rewrite H1, H2, H3, H4.
  apply emits_app.
  - unfold mk_tag. rewrite validated_ok by ranges. cbn [rbind].
    apply (action_emits (mkAction (TagReqAct true) (TagRequest (mkTag tagv)))). apply tag_action_wf. exact Ht.
  - apply (emits_app _ _ []); [apply emits_nil|]. rewrite map_app.
    assert (RA : forall a b, rconcat (a ++ b) = rconcat a +++ rconcat b).
    { induction a as [|x a IH]; intros b; cbn [app rconcat].
      - destruct (rconcat b); reflexivity.
      - rewrite IH. destruct x, (rconcat a), (rconcat b); cbn [rapp rbind]; rewrite ?app_assoc; reflexivity. }
    rewrite RA. apply emits_app; [exact H5|]. cbn [map rconcat].
    rewrite <- (app_nil_r (act_bits _ _ _)). apply emits_app; [|apply emits_nil]. apply act_emits; assumption.
Qed.
Lemma factory_refuses rnd tag t conf e : conf = None \/ t <> IF_HOST -> factory rnd tag t conf (Err e) = Err e.
Proof.
  intros H. unfold factory. unfold mk_command. cbn [command_loop rbind c_tag]. destruct tag, t; cbn;
  try reflexivity; destruct H; try contradiction; subst; reflexivity.
Qed.
Lemma factory_host rnd tag c op : factory rnd tag IF_HOST (Some c) op = Err ValueError.
Proof. unfold factory, mk_command. destruct tag; reflexivity. Qed.

Lemma file_args id off : (0 <= id <= 255 /\ 0 <= off <= len_max ->
    (let! l := mk_length off in mk_offset id l) = Ok (mkOffset id (mkLength off)))
  /\ (~ (0 <= id <= 255 /\ 0 <= off <= len_max) -> (let! l := mk_length off in mk_offset id l) = Err ValueError).
Proof.
  split; intros H.
  - destruct (mk_length_iff off) as [K _]. destruct K as [_ K]. rewrite K by tauto. cbn [rbind].
    unfold mk_offset. apply validated_ok. ranges.
  - destruct (Z_le_dec 0 off), (Z_le_dec off len_max);
      try (destruct (mk_length_iff off) as [_ K]; rewrite K by lia; reflexivity).
    destruct (mk_length_iff off) as [K _]. destruct K as [_ K]. rewrite K by lia. cbn [rbind].
    unfold mk_offset. apply validated_err. ranges.
Qed.
Lemma rbind_assoc {A B C} (r : res A) (f : A -> res B) (g : B -> res C) :
  (let! x := r in let! y := f x in g y) = (let! y := (let! x := r in f x) in g y).
Proof. destruct r; reflexivity. Qed.
Lemma create_read_ok rnd id len off t conf : 0 <= rnd <= 255 -> conf_ok t conf ->
  0 <= id <= 255 -> 0 <= off <= len_max -> 0 <= len <= len_max ->
  creates (create_read rnd id len off t conf) rnd t conf
    (act_bits false false (ReadFileData (mkDataRequest (mkOffset id (mkLength off)) (mkLength len)))).
Proof.
  intros Hr Hc Hi Ho Hl. unfold create_read. rewrite rbind_assoc.
  destruct (file_args id off) as [K _]. rewrite K by auto. cbn [rbind]. unfold mk_data_request.
  destruct (mk_length_iff len) as [[_ L] _]. rewrite L by exact Hl. cbn [rbind].
  apply factory_creates; auto. exact (conj (conj Hi Ho) Hl). exact I.
Qed.
Lemma create_read_bad rnd id len off t conf : 
  ~ (0 <= id <= 255 /\ 0 <= off <= len_max /\ 0 <= len <= len_max) ->
  create_read rnd id len off t conf = Err ValueError.
Proof.
  intros H. unfold create_read. rewrite rbind_assoc.
  assert (E : (let! y := (let! x := mk_length off in mk_offset id x) in
               (let! d := mk_data_request len y in Ok (ReadFileData d))) = Err ValueError).
  { destruct (file_args id off) as [K1 K2].
    destruct (Z_le_dec 0 id), (Z_le_dec id 255), (Z_le_dec 0 off), (Z_le_dec off len_max);
      try (rewrite K2 by lia; reflexivity).
    rewrite K1 by lia. cbn [rbind]. unfold mk_data_request.
    destruct (mk_length_iff len) as [_ L]. rewrite L by lia. reflexivity. }
  rewrite E. clear E.
  destruct t, conf; try apply factory_host; apply factory_refuses; auto; right; discriminate.
Qed.
Lemma data_args id off bs : 0 <= id <= 255 -> 0 <= off <= len_max -> Forall is_byte bs -> zlen bs <= len_max ->
  data_wf (mkData (mkOffset id (mkLength off)) (mkLength (zlen bs)) bs) /\
  mk_data bs (mkOffset id (mkLength off)) = Ok (mkData (mkOffset id (mkLength off)) (mkLength (zlen bs)) bs).
Proof.
  intros Hi Ho Hb Hl.
  assert (W : data_wf (mkData (mkOffset id (mkLength off)) (mkLength (zlen bs)) bs))
    by (refine (conj (conj Hi Ho) (conj Hb (conj eq_refl Hl)))).
  split; [exact W|]. exact (mk_data_ok _ W).
Qed.
Lemma create_write_ok rnd id bs off t conf : 0 <= rnd <= 255 -> conf_ok t conf ->
  0 <= id <= 255 -> 0 <= off <= len_max -> Forall is_byte bs -> zlen bs <= len_max -> bs <> [] ->
  creates (create_write rnd id bs off t conf) rnd t conf
    (act_bits false false (WriteFileData (mkData (mkOffset id (mkLength off)) (mkLength (zlen bs)) bs))).
Proof.
  intros Hr Hc Hi Ho Hb Hl Hn. unfold create_write. rewrite rbind_assoc.
  destruct (file_args id off) as [K _]. rewrite K by auto. cbn [rbind].
  destruct (data_args id off bs Hi Ho Hb Hl) as [W E]. rewrite E. cbn [rbind].
  apply factory_creates; auto.
Qed.
Lemma create_return_ok rnd id bs off tag t conf tagv : 0 <= tagv <= 255 ->
  tagv = (match tag with Some x => x | None => rnd end) -> conf_ok t conf ->
  0 <= id <= 255 -> 0 <= off <= len_max -> Forall is_byte bs -> zlen bs <= len_max -> bs <> [] ->
  creates (create_return rnd id bs off tag t conf) tagv t conf
    (act_bits false false (mk_return_file_data (mkData (mkOffset id (mkLength off)) (mkLength (zlen bs)) bs))).
Proof.
  intros Hr Hrv Hc Hi Ho Hb Hl Hn. unfold create_return. rewrite rbind_assoc.
  destruct (file_args id off) as [K _]. rewrite K by auto. cbn [rbind].
  destruct (data_args id off bs Hi Ho Hb Hl) as [W E]. rewrite E. cbn [rbind].
  apply factory_creates; auto. split; [exact W | reflexivity].
Qed.
Lemma create_read_header_ok rnd id t conf : 0 <= rnd <= 255 -> conf_ok t conf -> 0 <= id <= 255 ->
  creates (create_read_header rnd id t conf) rnd t conf (act_bits false false (ReadFileHeader (mkFileId id))).
Proof.
  intros Hr Hc Hi. unfold create_read_header, mk_file_id. rewrite validated_ok by ranges. cbn [rbind].
  apply factory_creates; auto. exact I.
Qed.
Lemma create_write_header_ok rnd id h t conf : 0 <= rnd <= 255 -> conf_ok t conf -> 0 <= id <= 255 -> fh_wf h ->
  creates (create_write_header rnd id h t conf) rnd t conf (act_bits false false (WriteFileHeader (mkFHO id h))).
Proof.
  intros Hr Hc Hi Hh. unfold create_write_header, mk_fho. rewrite validated_ok by ranges. cbn [rbind].
  apply factory_creates; auto. exact (conj Hi Hh). exact I.
Qed.
Lemma create_new_file_ok rnd id h t conf : 0 <= rnd <= 255 -> conf_ok t conf -> 0 <= id <= 255 -> fh_wf h ->
  creates (create_new_file rnd id h t conf) rnd t conf (act_bits false false (CreateNewFile (mkFHO id h))).
Proof.
  intros Hr Hc Hi Hh. unfold create_new_file, mk_fho. rewrite validated_ok by ranges. cbn [rbind].
  apply factory_creates; auto. exact (conj Hi Hh). exact I.
Qed.

(** ** Tags *)
Lemma generated_tag rnd l t r c : 0 <= rnd <= 255 -> match t with Some x => 0 <= x <= 255 | None => True end ->
  Forall (fun a => is_tag a = false) l ->
  mk_command rnd (map Some l) true t r = Ok c ->
  exists v, c_tag c = Some v /\ 0 <= v <= 255 /\ v = (match t with Some x => x | None => rnd end) /\
   forall bs, command_ser c = Ok bs -> exists rest, bytes_bits bs = tag_bits (c_respond c) v ++ rest.
Proof.
  intros Hr Ht Fl E.
  assert (TT : Forall tag_typed (somes (map Some l))).
  { rewrite somes_map. eapply Forall_impl; [|exact Fl]. intros a Ha K. congruence. }
  destruct (mk_command_spec rnd (map Some l) true t r TT) as (K1 & K2 & K3). rewrite has_none_map, somes_map in *.
  assert (FT : filter is_tag l = []).
  { apply filter_none, forallb_forall. intros a I. rewrite Forall_forall in Fl. rewrite (Fl a I). reflexivity. }
  assert (S : one_status l).
  { unfold one_status in *. destruct (le_dec (length (filter is_status l)) 1) as [L|L]; [exact L|].
    rewrite K1 in E by (intros (_ & _ & ?); lia). discriminate. }
  destruct K3 as (c' & E' & H1 & H2 & H3 & H4 & H5 & _).
  { unfold one_tag. rewrite FT. split; [cbn; lia | split; [auto | exact S]]. }
  { reflexivity. }
  rewrite E in E'. injection E' as <-.
  assert (CT : c_tag (command_of true t r l) = t).
  { unfold command_of. rewrite FT. reflexivity. }
  rewrite CT in H4. exists (match t with Some x => x | None => rnd end).
  refine (conj _ (conj _ (conj eq_refl _))); [destruct t; exact H4 | destruct t; lia|].
  intros bs Hs. unfold command_ser in Hs. rewrite H3, H4 in Hs.
  set (v := match t with Some x => x | None => rnd end) in *.
  replace (match t with Some x => Some x | None => Some rnd end) with (Some v) in Hs by (destruct t; reflexivity).
  cbv iota in Hs. assert (Hv : 0 <= v <= 255) by (unfold v; destruct t; lia).
  unfold mk_tag in Hs. rewrite validated_ok in Hs by ranges. cbn [rbind] in Hs.
  destruct (action_emits (mkAction (TagReqAct (c_respond c)) (TagRequest (mkTag v))) (tag_action_wf _ _ Hv)) as (b0 & E0 & B0 & L0).
  change (mk_action (TagReqAct (c_respond c)) (TagRequest (mkTag v)))
    with (Ok (mkAction (TagReqAct (c_respond c)) (TagRequest (mkTag v)))) in Hs. cbn [rbind] in Hs.
  rewrite E0 in Hs. cbn [rapp rbind] in Hs.
  match type of Hs with (let! y := ?q in _) = _ => destruct q as [b1|] end; cbn [rbind] in Hs; [|discriminate].
  injection Hs as <-. exists (bytes_bits b1). rewrite bytes_bits_app, L0. reflexivity.
Qed.
