(** Tags of parsed commands, in terms of the actions they contain. *)
From Coq Require Import ZifyBool ZifyNat.
From Verif Require Export LReser.
Ltac Zify.zify_post_hook ::= Z.div_mod_to_equations.

Lemma one_tag_filter l a : one_tag l -> In a l -> is_tag a = true -> filter is_tag l = [a].
Proof.
  intros O I T. assert (K : In a (filter is_tag l)) by (apply filter_In; auto). unfold one_tag in O.
  destruct (filter is_tag l) as [|b [|c r]]; cbn [length] in O; [destruct K | | lia].
  destruct K as [-> | []]. reflexivity.
Qed.
Lemma tag_cases a : act_parsed a -> is_tag a = true ->
  (exists r t, a = mkAction (TagReqAct r) (TagRequest t)) \/
  (exists e x t, a = mkAction (TagRespAct e x) (TagResponse t)).
Proof.
  destruct a as [k o]. unfold act_parsed, is_tag. cbn [a_kind a_op]. intros [_ H] T.
  destruct k; try discriminate; destruct o; try contradiction; eauto 6.
Qed.
Lemma parsed_fields l : Forall act_parsed l -> one_tag l ->
  let c := command_of false None true l in
  (forall t, c_tag c = Some t <->
     (exists r, In (mkAction (TagReqAct r) (TagRequest (mkTag t))) l)
     \/ (exists e x, In (mkAction (TagRespAct e x) (TagResponse (mkTag t))) l))
  /\ (c_completed c = true <-> exists x t, In (mkAction (TagRespAct true x) (TagResponse t)) l)
  /\ (forall x, c_error c = Some x <-> exists e t, In (mkAction (TagRespAct e x) (TagResponse t)) l)
  /\ (c_respond c = false <-> exists t, In (mkAction (TagReqAct false) (TagRequest t)) l).
Proof.
  intros F O c. rewrite Forall_forall in F.
  assert (TR : forall k o, (match k with TagReqAct _ => True | TagRespAct _ _ => True | _ => False end) ->
     In (mkAction k o) l -> filter is_tag l = [mkAction k o]).
  { intros k o K I. apply one_tag_filter; [exact O | exact I |]. unfold is_tag. cbn [a_kind]. destruct k; tauto. }
  destruct (filter is_tag l) as [|a r] eqn:E.
  - assert (N : forall k o, (match k with TagReqAct _ => True | TagRespAct _ _ => True | _ => False end) ->
       In (mkAction k o) l -> False) by (intros k o K I; specialize (TR k o K I); discriminate).
    unfold c, command_of. rewrite E. cbn [c_tag c_completed c_error c_respond].
    refine (conj _ (conj _ (conj _ _))).
    + intros t. split; [discriminate|]. intros [(q & I) | (e & x & I)]; exfalso; eapply N; [| exact I | | exact I]; exact Logic.I.
    + split; [discriminate|]. intros (x & t & I). exfalso. eapply N; [|exact I]. exact Logic.I.
    + intros x. split; [discriminate|]. intros (e & t & I). exfalso. eapply N; [|exact I]. exact Logic.I.
    + split; [discriminate|]. intros (t & I). exfalso. eapply N; [|exact I]. exact Logic.I.
  - destruct (filter_hd _ _ _ _ E) as [T I]. destruct (tag_cases a (F a I) T) as [(q & [t] & ->) | (e & x & [t] & ->)];
    unfold c, command_of; rewrite E; cbn [a_kind tag_id_of a_op tag_value c_tag c_completed c_error c_respond].
    + refine (conj _ (conj _ (conj _ _))).
      * intros t'. split; [intros [= ->]; left; eauto|].
        intros [(q' & I') | (e & x & I')]; apply TR in I'; try exact Logic.I; injection I' as; congruence.
      * split; [discriminate|]. intros (x & t' & I'). apply TR in I'; [discriminate | exact Logic.I].
      * intros x. split; [discriminate|]. intros (e & t' & I'). apply TR in I'; [discriminate | exact Logic.I].
      * split; [intros ->; eauto|]. intros (t' & I'). apply TR in I'; [|exact Logic.I]. injection I' as; congruence.
    + refine (conj _ (conj _ (conj _ _))).
      * intros t'. split; [intros [= ->]; right; eauto|].
        intros [(q' & I') | (e' & x' & I')]; apply TR in I'; try exact Logic.I; injection I' as; congruence.
      * split; [intros ->; eauto|]. intros (x' & t' & I'). apply TR in I'; [|exact Logic.I]. injection I' as; congruence.
      * intros x'. split; [intros [= ->]; eauto|]. intros (e' & t' & I'). apply TR in I'; [|exact Logic.I]. injection I' as; congruence.
      * split; [discriminate|]. intros (t' & I'). apply TR in I'; [discriminate | exact Logic.I].
Qed.
Lemma parsed_command n bs c s' : alp_parse n (stream_of bs) = Ok (c, s') ->
  exists l, reads (stream_of bs) (map Some l) s' /\ one_tag l /\ one_status l
  /\ c_actions c = filter plain l
  /\ c_status c = hd_error (filter is_status l)
  /\ (forall t, c_tag c = Some t <->
     (exists r, In (mkAction (TagReqAct r) (TagRequest (mkTag t))) l)
     \/ (exists e x, In (mkAction (TagRespAct e x) (TagResponse (mkTag t))) l))
  /\ (c_completed c = true <-> exists x t, In (mkAction (TagRespAct true x) (TagResponse t)) l)
  /\ (forall x, c_error c = Some x <-> exists e t, In (mkAction (TagRespAct e x) (TagResponse t)) l)
  /\ (c_respond c = false <-> exists t, In (mkAction (TagReqAct false) (TagRequest t)) l).
Proof.
  intros E. destruct (alp_parsed n (stream_of bs) c s' eq_refl E) as (l & R & F & T & S & ->).
  exists l. refine (conj R (conj T (conj S (conj _ (conj _ _))))).
  - apply command_of_actions.
  - apply command_of_status.
  - exact (parsed_fields l F T).
Qed.

(** totality on byte strings *)
Lemma skip_bits bs d r : bytes_bits bs = d ++ r -> (length d mod 8 = 0)%nat ->
  r = bytes_bits (skipn (length d / 8) bs) /\ (length d / 8 <= length bs)%nat.
Proof.
  intros E M. assert (L : length (bytes_bits bs) = (8 * length bs)%nat) by (rewrite bytes_bits_length; lia).
  assert (Ld : (length d <= 8 * length bs)%nat) by (rewrite <- L, E, app_length; lia).
  split; [|lia].
  rewrite <- (firstn_skipn (length d / 8) bs) in E at 1. rewrite bytes_bits_app in E.
  assert (Lf : length (bytes_bits (firstn (length d / 8) bs)) = length d).
  { rewrite bytes_bits_length, firstn_length. lia. }
  apply (f_equal (skipn (length d))) in E. rewrite <- Lf in E at 1. rewrite !skipn_app, !skipn_all, !Nat.sub_diag in E.
  cbn [skipn app] in E. symmetry. exact E.
Qed.
Lemma alp_on_bytes n bs :
  match alp_parse n (stream_of bs) with
  | Ok (c, s') => exists k, pos s' = (8 * k)%nat /\ (k <= length bs)%nat /\ bits s' = bytes_bits (skipn k bs)
                            /\ n <= Z.of_nat k
  | Err e => e = ReadError \/ e = BoolEof \/ e = ParseError \/ e = ValueError \/ e = AttributeError \/ e = AssertNoMsg
  end.
Proof.
  pose proof (alp_total n (stream_of bs) eq_refl) as T. destruct (alp_parse n (stream_of bs)) as [[c s']|e].
  - destruct T as (l & d & _ & _ & Hb & Hp & M & L & _). exists (length d / 8)%nat.
    destruct (skip_bits bs d (bits s') Hb M) as [K1 K2]. cbn [pos stream_of] in Hp. unfold zlen in L.
    refine (conj _ (conj K2 (conj K1 _))); lia.
  - destruct T as [T _]. destruct e; cbn in T; try discriminate; tauto.
Qed.
Lemma alp_prefix_only n bs more c s' : alp_parse n (stream_of bs) = Ok (c, s') ->
  alp_parse n (stream_of (bs ++ more)) = Ok (c, St (pos s') (bits s' ++ bytes_bits more)).
Proof.
  intros E. pose proof (alp_total n (stream_of bs) eq_refl) as T. rewrite E in T.
  destruct T as (l & d & _ & _ & _ & _ & _ & _ & X). specialize (X (bytes_bits more)).
  unfold ext, stream_of in *. cbn [pos bits] in X. rewrite bytes_bits_app. exact X.
Qed.

(** ** Empty data *)
Lemma empty_data_one_byte b7 b6 o d : op_wf o -> (o = WriteFileData d \/ exists p, o = ReturnFileData d p) ->
  exists bs, action_ser (mkAction (Regular b7 b6) o) = Ok bs /\ Forall is_byte bs
   /\ (d_data d = [] <-> length bs = 1%nat)
   /\ (d_data d <> [] -> bytes_bits bs = act_bits b7 b6 o)
   /\ (d_data d = [] -> bytes_bits bs = [b7; b6] ++ Zbits 6 (opcode o)).
Proof.
  intros W Ho. destruct (empty_data_ser b7 b6 o d W Ho) as (bs & E & B & L). exists bs.
  refine (conj E (conj B _)).
  assert (Lb : length (bytes_bits bs) = (8 * length bs)%nat) by (rewrite bytes_bits_length; lia).
  destruct (d_data d) as [|x r] eqn:D.
  - rewrite L, app_length, Zbits_length in Lb. cbn [length] in Lb.
    refine (conj _ (conj _ _)); [split; [lia | reflexivity] | congruence | auto].
  - assert (K : (8 < length (act_bits b7 b6 o))%nat).
    { unfold act_bits. rewrite !app_length, Zbits_length. cbn [length].
      destruct Ho as [-> | (p & ->)]; cbn [operand_layout]; unfold data_layout, off_layout;
      rewrite !app_length, Zbits_length; lia. }
    rewrite L in Lb. refine (conj _ (conj _ _)); [split; [discriminate | lia] | auto | discriminate].
Qed.
(** a lone write opcode takes its operand from whatever follows *)
Lemma empty_write_misparsed b7 b6 d d' bs : data_wf d -> d_data d = [] -> data_wf d' ->
  action_ser (mkAction (Regular b7 b6) (WriteFileData d)) = Ok bs ->
  accepts parse_action (bytes_bits bs ++ data_layout d') (Some (mkAction (Regular b7 b6) (WriteFileData d'))).
Proof.
  intros W E W' S. destruct (empty_data_one_byte b7 b6 (WriteFileData d) d W (or_introl eq_refl)) as (bs' & S' & _ & _ & _ & L).
  rewrite S in S'. injection S' as <-. rewrite (L E), <- app_assoc.
  apply (incoming_accepts (act_bits b7 b6 (WriteFileData d'))). constructor; [exact W'|].
  assert (D : d_data d' = [] \/ d_data d' <> []) by (destruct (d_data d'); [auto | right; discriminate]).
  destruct D; [right; exists d'; auto | left; assumption].
Qed.
