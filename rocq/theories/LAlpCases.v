(** Witnesses and special cases for the ALP properties. *)
From Coq Require Import ZifyBool ZifyNat.
From Verif Require Import SCommand LTags.
Ltac Zify.zify_post_hook ::= Z.div_mod_to_equations.

(** ** Witnesses *)
Lemma unparsable_requests : exists a b c, action_ser a = Ok [0] /\ action_ser b = Ok [2; 7] /\ 
  (exists rest, action_ser c = Ok (6 :: rest)) /\
  rejects parse_action (Zbits 8 0) ParseError /\ rejects parse_action (Zbits 8 2) ParseError
  /\ rejects parse_action (Zbits 8 6) ParseError.
Proof.
  exists (mkAction (Regular false false) NoOperation), (mkAction (Regular false false) (ReadFileHeader (mkFileId 7))),
   (mkAction (Regular false false) (WriteFileHeader (mkFHO 7
      (mkFH (mkPerm true true true true true true true true) (mkProp true AC_LIST VOLATILE) 0 0 1 1)))).
  refine (conj eq_refl (conj eq_refl (conj _ (conj _ (conj _ _))))); [eexists; reflexivity | ..].
  all: apply (opcode_rejects false false); [lia | unfold op_known; lia].
Qed.
Lemma empty_data_refuted : exists d, data_wf d /\
  ~ emits (action_ser (mkAction (Regular false false) (WriteFileData d))) (act_bits false false (WriteFileData d)).
Proof.
  exists (mkData (mkOffset 64 (mkLength 0)) (mkLength 0) []). split.
  - unfold data_wf, off_wf, len_wf, len_max. cbn. repeat split; try lia. constructor.
  - intros (bs & E & _ & L). vm_compute in E. injection E as <-. vm_compute in L. discriminate.
Qed.
Lemma two_tags : alp_parse 4 (stream_of [163; 7; 52; 9]) = Err ParseError
  /\ exists l s', reads (stream_of [163; 7; 52; 9]) (map Some l) s' /\ length (filter is_tag l) = 2%nat.
Proof.
  split; [vm_compute; reflexivity|].
  exists [mkAction (TagRespAct true false) (TagResponse (mkTag 7)); mkAction (TagReqAct false) (TagRequest (mkTag 9))].
  exists (St 32 []). split; [|reflexivity]. cbn [map].
  econstructor; [vm_compute; reflexivity|]. econstructor; [vm_compute; reflexivity|]. constructor.
Qed.
Lemma reser_refuted : exists bs c s' bs', alp_parse 6 (stream_of bs) = Ok (c, s') /\ bits s' = []
  /\ command_ser c = Ok bs' /\ bs' <> bs.
Proof.
  exists [163; 7; 1; 64; 0; 4]. eexists _, _, _.
  refine (conj _ (conj _ (conj _ _))); [vm_compute; reflexivity | reflexivity | vm_compute; reflexivity | discriminate].
Qed.
Lemma incoming_case : exists ls acts, Forall2 incoming ls acts /\ one_tag acts /\ one_status acts
  /\ existsb is_forward acts = false /\ length acts = 3%nat /\ ~ Forall reserializable acts.
Proof.
  set (st := mkStatus (mkChannelID (mkCH PN9 LO_RATE BAND_868) 0) 1 2 3 false false false true 4 5 (mkCT 0 0) addr_default).
  set (d := mkData (mkOffset 64 (mkLength 0)) (mkLength 2) [1; 2]).
  do 2 eexists. refine (conj _ _).
  - constructor; [|constructor; [|constructor; [|constructor]]].
    + apply (in_response true false (mkTag 7)). unfold tag_wf. cbn. lia.
    + apply (in_status 16 st); [lia | | cbn; lia | exact I].
      unfold status_wf, cid_wf, ct_wf, addr_wf. cbn. lia.
    + apply (in_regular false false (ReturnFileData d (try_parse_system_file d))).
      * split; [|reflexivity]. unfold data_wf, off_wf, len_wf, len_max. cbn. repeat split; try lia; repeat constructor; lia.
      * left. cbn. discriminate.
  - unfold one_tag, one_status. cbn [filter is_tag is_status a_kind length Z.eqb Pos.eqb existsb is_forward orb].
    refine (conj _ (conj _ (conj _ (conj _ _)))); auto.
    intros F. inversion F as [|? ? F1 _]. exact F1.
Qed.
Lemma ungenerated c : command_wf c -> c_generate c = false ->
  emits (command_ser c) (flat_map action_layout (c_actions c)).
Proof.
  intros W G. pose proof (command_emits c W) as E. unfold command_layout in E. rewrite G in E. exact E.
Qed.
Lemma query_iff q : query_wf q -> (accepts query_parse (query_layout q) q <-> query_supported q).
Proof.
  intros W. split; [|intros S; apply query_accepts; assumption]. intros A.
  specialize (A 0%nat []). apply post_query in A. tauto.
Qed.
Lemma query_wrong_length : exists q, query_wf q /\ q_type q = Q_COMP_VALUE /\ q_mask q = false
  /\ ~ accepts query_parse (query_layout q) q /\ mk_query (q_type q) (q_mask q) (q_params q) (q_compare_length q) (q_compare_value q) (q_file_a q) = Ok q.
Proof.
  exists (mkQuery Q_COMP_VALUE false (mkArith true C_GT) (mkLength 1) [1; 44] (mkOffset 32 (mkLength 1))).
  assert (W : query_wf (mkQuery Q_COMP_VALUE false (mkArith true C_GT) (mkLength 1) [1; 44] (mkOffset 32 (mkLength 1)))).
  { unfold query_wf, len_wf, off_wf, len_wf, len_max; cbn. repeat split; try lia. repeat constructor; lia. }
  refine (conj W (conj eq_refl (conj eq_refl (conj _ eq_refl)))).
  rewrite query_iff by exact W. intros (_ & _ & E). discriminate E.
Qed.
