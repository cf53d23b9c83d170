(** What the ALP parser can return: well-formed objects only. *)
From Coq Require Import ZifyBool ZifyNat.
From Verif Require Export LTotal.
Ltac Zify.zify_post_hook ::= Z.div_mod_to_equations.

Definition post {A} (R : A -> Prop) (p : P A) : Prop := forall s a s', p s = Ok (a, s') -> R a.
Lemma post_bind {A B} (R1 : A -> Prop) (R : B -> Prop) (p : P A) (f : A -> P B) :
  post R1 p -> (forall a, R1 a -> post R (f a)) -> post R (bindp p f).
Proof. intros Hp Hf s b s' H. apply bindp_inv in H as (a & s1 & H1 & H2). exact (Hf a (Hp _ _ _ H1) _ _ _ H2). Qed.
Lemma post_ret {A} (R : A -> Prop) a : R a -> post R (ret a).
Proof. intros H s x s' E. apply ret_inv in E as [-> _]. exact H. Qed.
Lemma post_raise {A} (R : A -> Prop) e : post R (raise e).
Proof. intros s x s' E. discriminate. Qed.
Lemma post_lift {A} (R : A -> Prop) r : (forall a, r = Ok a -> R a) -> post R (lift r).
Proof. intros H s x s' E. apply lift_inv in E as [E _]. auto. Qed.
Lemma post_uint n : post (fun v => 0 <= v < 2 ^ Z.of_nat n) (read_uint n).
Proof. intros s x s' E. apply read_uint_inv in E. tauto. Qed.
Lemma post_true {A} (p : P A) : post (fun _ => True) p.
Proof. intros s x s' E. exact I. Qed.
Lemma post_bytes n : 0 <= n -> post (fun l => zlen l = n /\ Forall is_byte l) (read_bytes n).
Proof. intros H s x s' E. apply read_bytes_inv in E; tauto. Qed.
Lemma post_weaken {A} (R R' : A -> Prop) p : post R p -> (forall a, R a -> R' a) -> post R' p.
Proof. intros H K s a s' E. apply K. exact (H _ _ _ E). Qed.

Ltac val H := let h := fresh in
  match type of H with validated _ _ = Ok _ => apply validated_inv in H as [h <-] end.
Ltac post1 :=
  cbv beta zeta iota;
  lazymatch goal with
  | |- post _ (bindp (read_uint _) _) => eapply post_bind; [apply post_uint | cbv beta; intros ? ?]
  | |- post _ (bindp (read_bytes _) _) => eapply post_bind; [apply post_bytes | cbv beta; intros ? [? ?]]
  | |- post _ (bindp (lift ?r) _) => apply (post_bind (fun x => r = Ok x)); [apply post_lift; intros ? HL; exact HL | cbv beta; intros ? ?]
  | |- post _ (bindp (ret ?v) _) => apply (post_bind (fun x => x = v)); [apply post_ret; reflexivity | cbv beta; intros ? ->]
  | |- post _ (bindp (raise _) _) => intros ? ? ? HR; discriminate HR
  | |- post _ (raise _) => apply post_raise
  | |- post _ (bindp (bindp _ _) _) => fail
  | |- post _ (bindp (if ?b then _ else _) _) => destruct b eqn:?
  | |- post _ (bindp (match ?x with _ => _ end) _) => destruct x eqn:?
  | |- post _ (if ?b then _ else _) => destruct b eqn:?
  | |- post _ (match ?x with _ => _ end) => destruct x eqn:?
  | |- post _ (bindp read_bool _) => eapply post_bind; [apply post_true | intros ? _]
  | |- post _ (bindp (read_pad _) _) => eapply post_bind; [apply post_true | intros ? _]
  | |- post _ (bindp (read_int _) _) => eapply post_bind; [apply post_true | intros ? _]
  end.
Ltac post_use L := eapply post_bind; [apply L | cbv beta; intros ? ?].

Lemma post_ct : post ct_wf ct_parse.
Proof. intros s a s' E. apply ct_canonical in E. tauto. Qed.
Lemma ct_compress_wf v b c : ct_compress v b = Ok (Some c) -> ct_wf c.
Proof.
  unfold ct_compress. generalize 0. generalize 8%nat. intros n.
  induction n as [|f IH]; intros i H; cbn [ct_compress_from] in H; [discriminate|].
  destruct (v <=? _); [|eapply IH; exact H].
  match type of H with rbind ?r _ = _ => destruct r as [d|e] eqn:E end; cbn [rbind] in H; [|discriminate].
  injection H as <-. unfold mk_ct in E. val E. unfold ct_wf. cbn [ct_exp ct_mant]. ranges.
Qed.
Lemma post_addr : post addr_wf addr_parse.
Proof.
  intros s a s' H. unfold addr_parse in H.
  apply bindp_inv in H as (u & s1 & _ & H). apply bindp_inv in H as (v & s2 & _ & H).
  apply bindp_inv in H as (t & s3 & _ & H). apply bindp_inv in H as (v2 & s4 & _ & H).
  apply bindp_inv in H as (m & s5 & _ & H). apply bindp_inv in H as (cl & s6 & _ & H). cbv zeta in H.
  apply bindp_inv in H as (i & s7 & Hi & H). apply bindp_inv in H as (i2 & s8 & Hi2 & H).
  apply lift_inv in H as [H _]. unfold mk_addr in H. val H. unfold addr_wf. cbn [ad_access_class ad_id_type ad_id].
  apply andb_true_iff in H0 as [Hc Ho]. split; [ranges|].
  destruct t, i2; cbn [addr_id_ok] in Ho; try discriminate; try exact I; try ranges.
  destruct i as [|z|cc]; cbn [addr_id_length Nat.ltb Nat.leb] in *.
  - apply bindp_inv in Hi as (? & ? & _ & Hi). apply ret_inv in Hi as [Hi _]. discriminate.
  - apply bindp_inv in Hi2 as (oc & s9 & Hc2 & Hi2). apply lift_inv in Hc2 as [Hc2 _].
    apply ret_inv in Hi2 as [Hi2 _]. destruct oc as [c'|]; [|discriminate]. injection Hi2 as ->.
    eapply ct_compress_wf; exact Hc2.
  - apply bindp_inv in Hi as (? & ? & _ & Hi). apply ret_inv in Hi as [Hi _]. discriminate.
Qed.
Lemma post_length : post len_wf length_parse.
Proof. intros s a s' E. apply length_inv in E as (k & F & _). apply len_fits_max in F. exact F. Qed.
Lemma post_offset : post off_wf offset_parse.
Proof.
  unfold offset_parse. post1. post_use post_length. apply post_lift. intros o E. unfold mk_offset in E. val E.
  split; cbn [off_id off_offset]; [ranges | assumption].
Qed.
Lemma mk_length_inv v l : mk_length v = Ok l -> len_wf l /\ len_value l = v.
Proof. unfold mk_length. intros E. val E. unfold len_wf, len_max. cbn [len_value]. split; [ranges | reflexivity]. Qed.
Lemma post_dr : post dr_wf dr_parse.
Proof.
  unfold dr_parse. post_use post_offset. post_use post_length. apply post_lift. intros d E. unfold mk_data_request in E.
  destruct (mk_length (len_value a0)) as [l|] eqn:El; cbn [rbind] in E; [|discriminate]. injection E as <-.
  apply mk_length_inv in El as [? _]. split; assumption.
Qed.
Lemma mk_data_inv bs o d : mk_data bs o = Ok d -> off_wf o -> data_wf d /\ d_data d = bs /\ d_offset d = o.
Proof.
  unfold mk_data. intros E W. destruct (mk_length (zlen bs)) as [l|] eqn:El; cbn [rbind] in E; [|discriminate].
  val E. apply mk_length_inv in El as [Hl Hv]. split; [|split; reflexivity].
  refine (conj W (conj _ (conj Hv _))); cbn [d_data d_length].
  - apply byte_forallb. exact H.
  - unfold len_wf in Hl. rewrite Hv in Hl. lia.
Qed.
Lemma post_data : post data_wf data_parse.
Proof.
  unfold data_parse. post_use post_offset. post_use post_length. post1; [unfold len_wf in *; lia|].
  apply post_lift. intros d E. apply mk_data_inv in E; tauto.
Qed.
Lemma post_fho : post fho_wf fho_parse.
Proof.
  unfold fho_parse. post1. eapply (post_bind fh_wf); [intros s h s' E; apply fh_inv in E; tauto|]. intros h Hh.
  apply post_lift. intros f E. unfold mk_fho in E. val E. split; cbn [fho_id fho_header]; [ranges | exact Hh].
Qed.
Lemma post_query : post (fun q => query_wf q /\ query_supported q) query_parse.
Proof.
  unfold query_parse. post1. post1.
  match goal with H : qtype_of _ = Ok ?t |- _ => destruct t end; try post1; try discriminate.
  post1. post1; [post1|]. post1.
  eapply (post_bind (fun _ => True)); [apply post_true|]. intros p _.
  post_use post_length. post1; [unfold len_wf in *; lia|]. post_use post_offset.
  apply post_lift. intros q E. unfold mk_query in E. val E. unfold query_wf, query_supported.
  cbn [q_type q_mask q_params q_compare_length q_compare_value q_file_a]. auto 10.
Qed.

Lemma post_abp : post abp_wf abp_parse.
Proof.
  unfold abp_parse. repeat post1. apply post_ret. unfold abp_wf. cbn [abp_port abp_rate abp_dev_addr abp_netw_id].
  change (2 ^ Z.of_nat 8) with 256 in *. change (2 ^ Z.of_nat 32) with 4294967296 in *. lia.
Qed.
Lemma post_otaa : post otaa_wf otaa_parse.
Proof.
  unfold otaa_parse. repeat post1. apply post_ret. unfold otaa_wf. cbn [otaa_port otaa_rate].
  change (2 ^ Z.of_nat 8) with 256 in *. lia.
Qed.
Lemma post_conf : post conf_wf conf_parse.
Proof.
  unfold conf_parse. eapply (post_bind (fun _ => True)); [apply post_true|]. intros q _.
  post_use post_ct. post_use post_addr. apply post_ret. split; assumption.
Qed.
Lemma post_status : post (fun s => status_wf s /\ st_rx_level s <= 127) status_parse.
Proof.
  intros s st s' E. split; [|eapply status_level; exact E]. revert s st s' E. change (post status_wf status_parse).
  unfold status_parse. eapply (post_bind cid_wf); [intros s h s' E; apply cid_inv in E; tauto|]. intros c Hc.
  repeat post1. post_use post_ct. post_use post_addr. apply post_lift. intros x E. unfold mk_status in E. val E.
  unfold status_wf. cbn [st_channel_id st_rx_level st_link_budget st_target_rx_level st_fifo_token st_seq_nr st_response_to st_addressee].
  refine (conj Hc (conj _ (conj _ (conj _ (conj _ (conj _ (conj _ _))))))); try assumption; ranges.
Qed.

(** the actions the parser returns *)
Definition act_parsed (a : Action) : Prop :=
  op_wf (a_op a) /\
  match a_kind a, a_op a with
  | Regular _ _, ReadFileData _ => True
  | Regular _ _, WriteFileData _ => True
  | Regular _ _, BreakQuery q => query_supported q
  | Regular _ _, CreateNewFile _ => True
  | Regular _ _, ReturnFileData _ _ => True
  | Regular _ _, ReturnFileHeader _ => True
  | FwdAct _, Forward i =>
      match ic_id i, ic_conf i with
      | IF_D7ASP, Some (CfgD7 _) | IF_SERIAL, None | IF_ABP, Some (CfgABP _) | IF_OTAA, Some (CfgOTAA _) => True
      | _, _ => False
      end
  | IndFwdAct v _, IndirectForward i => v = match ii_overload i with Some _ => true | None => false end
  | StatusAct e, InterfaceStatus o => e = 1 /\ match iso_status o with
       | Some st => iso_id o = 215 /\ st_rx_level st <= 127
       | None => iso_id o = 215 \/ iso_id o = 1 end
  | TagReqAct _, TagRequest _ => True
  | TagRespAct _ _, TagResponse _ => True
  | _, _ => False
  end.
Definition oact_parsed (a : option Action) : Prop := match a with Some a => act_parsed a | None => True end.
Lemma mk_action_inv k o a : mk_action k o = Ok a -> a = mkAction k o.
Proof. unfold mk_action. intros E. val E. reflexivity. Qed.
Ltac act := match goal with H : mk_action _ _ = Ok _ |- _ => apply mk_action_inv in H; subst end.
Lemma post_regular {A} b7 b6 (p : P A) op R : post R p ->
  (forall x, R x -> act_parsed (mkAction (Regular b7 b6) (op x))) -> post oact_parsed (parse_regular b7 b6 p op).
Proof. intros H K. unfold parse_regular. post_use H. post1. act. apply post_ret. apply K. assumption. Qed.
Lemma post_action : post oact_parsed parse_action.
Proof.
  unfold parse_action. do 3 post1.
  repeat match goal with |- post _ (if ?b then _ else _) => destruct b end.
  - eapply post_regular; [apply post_dr|]. intros x W. split; [exact W | exact I].
  - eapply post_regular; [apply post_data|]. intros x W. split; [exact W | exact I].
  - eapply post_regular; [apply post_query|]. intros x [W S]. split; [exact W | exact S].
  - eapply post_regular; [apply post_fho|]. intros x W. split; [exact W | exact I].
  - eapply post_regular; [apply post_data|]. intros x W. split; [split; [exact W | reflexivity] | exact I].
  - eapply post_regular; [apply post_fho|]. intros x W. split; [exact W | exact I].
  - unfold parse_status_action. post1; [post1|]. post1; [|apply post_ret; exact I]. post1. post1.
    post1; [post1|]. post1.
    + apply (post_bind (fun o => match o with Some s => status_wf s /\ st_rx_level s <= 127 | None => True end)).
      { post1; [post_use post_status; apply post_ret; assumption | apply post_ret; exact I]. }
      intros st Hst. post1. post1. act. apply post_ret.
      match goal with H : mk_iso _ _ = Ok _ |- _ => unfold mk_iso in H; val H end.
      split; cbn [a_op a_kind op_wf]; unfold iso_wf; cbn [iso_id iso_status].
      * split; [lia | destruct st; tauto].
      * split; [reflexivity|]. destruct st; [split; [reflexivity | tauto] | left; reflexivity].
    + post1; [|post1]. post1. post1. act. apply post_ret.
      match goal with H : mk_iso _ _ = Ok _ |- _ => unfold mk_iso in H; val H end.
      split; cbn [a_op a_kind op_wf]; unfold iso_wf; cbn [iso_id iso_status].
      * split; [lia | exact I].
      * split; [reflexivity | right; reflexivity].
  - unfold parse_tag_response_action. post1. post1. post1. act. apply post_ret.
    match goal with H : mk_tag _ = Ok _ |- _ => unfold mk_tag in H; val H end.
    split; [|exact I]. cbn [a_op op_wf tag_wf]. unfold tag_wf. cbn [tag_value]. ranges.
  - unfold parse_forward_action. post1; [post1|]. post1. post1.
    match goal with H : iftype_of _ = Ok ?t |- _ =>
      apply (post_bind (fun c => ic_wf (mkIC t c) /\ match t, c with
        | IF_D7ASP, Some (CfgD7 _) | IF_SERIAL, None | IF_ABP, Some (CfgABP _) | IF_OTAA, Some (CfgOTAA _) => True
        | _, _ => False end)) end.
    { match goal with H : iftype_of _ = Ok ?t |- _ => destruct t end; cbv iota.
      - apply post_raise.
      - apply post_ret. split; exact I.
      - post_use post_abp. apply post_ret. split; [assumption | exact I].
      - post_use post_otaa. apply post_ret. split; [assumption | exact I].
      - post_use post_conf. apply post_ret. split; [assumption | exact I]. }
    intros c [W K]. post1. act. apply post_ret. split; [exact W | exact K].
  - unfold parse_indirect_forward_action. post1.
    match goal with |- post _ (bindp (if ?b then _ else _) _) =>
    apply (post_bind (fun o => match o with Some x => addr_wf x | None => True end
                               /\ b = match o with Some _ => true | None => false end)) end.
    { post1; [post_use post_addr; apply post_ret; auto | apply post_ret; auto]. }
    intros o [W K]. post1. post1. act. apply post_ret.
    match goal with H : mk_indirect _ _ = Ok _ |- _ => unfold mk_indirect in H; val H end.
    split; [|reflexivity]. cbn [a_op op_wf]. split; cbn [ii_file ii_overload]; [ranges | exact W].
  - unfold parse_tag_request_action. post1; [post1|]. post1. post1. post1. act. apply post_ret.
    match goal with H : mk_tag _ = Ok _ |- _ => unfold mk_tag in H; val H end.
    split; [|exact I]. cbn [a_op op_wf tag_wf]. unfold tag_wf. cbn [tag_value]. ranges.
  - apply post_raise.
Qed.
Lemma reads_parsed s l s' : reads s l s' -> Forall oact_parsed l.
Proof. induction 1; constructor; [eapply post_action; eassumption | assumption]. Qed.
Lemma parsed_tag_typed a : act_parsed a -> tag_typed a.
Proof.
  destruct a as [k o]. unfold act_parsed, tag_typed, is_tag, tag_id_of. cbn [a_kind a_op].
  intros [_ H] T. destruct k; try discriminate; destruct o; try contradiction; discriminate.
Qed.
Lemma somes_forall {A} (R : A -> Prop) (l : list (option A)) :
  Forall (fun o => match o with Some a => R a | None => True end) l -> Forall R (somes l).
Proof.
  induction 1 as [|[a|] l H Hl IH]; cbn [somes flat_map app]; [constructor | constructor; assumption | exact IH].
Qed.
Lemma has_none_somes l : has_none l = false -> l = map Some (somes l).
Proof.
  induction l as [|[a|] l IH]; cbn [has_none existsb somes flat_map app map]; [reflexivity | | discriminate].
  cbn [orb]. intros H. f_equal. apply IH. exact H.
Qed.

(** ** A successful parse, exactly *)
Lemma alp_parsed n s c s' : (pos s mod 8 = 0)%nat -> alp_parse n s = Ok (c, s') ->
  exists l, reads s (map Some l) s' /\ Forall act_parsed l /\ one_tag l /\ one_status l
            /\ c = command_of false None true l.
Proof.
  intros Hs E. pose proof (alp_total n s Hs) as T. rewrite E in T.
  destruct T as (l & d & R & K & _). pose proof (reads_parsed _ _ _ R) as F.
  apply somes_forall in F. assert (TT : Forall tag_typed (somes l)).
  { eapply Forall_impl; [|exact F]. apply parsed_tag_typed. }
  destruct (mk_command_spec 0 l false None true TT) as (K1 & K2 & K3).
  assert (OK : (None = @None Z -> one_tag (somes l)) /\ (None <> @None Z -> filter is_tag (somes l) = []) /\ one_status (somes l)).
  { assert (D : forall P : Prop, {P} + {~ P} -> ~ ~ P -> P) by (intros P [?|?] ?; tauto).
    unfold one_tag, one_status in *.
    destruct (le_dec (length (filter is_tag (somes l))) 1) as [L1|L1];
    destruct (le_dec (length (filter is_status (somes l))) 1) as [L2|L2];
    try (rewrite K1 in K by (intros (X1 & _ & X3); specialize (X1 eq_refl); lia); discriminate).
    split; [auto | split; [congruence | exact L2]]. }
  destruct (has_none l) eqn:N; [rewrite K2 in K by auto; discriminate|].
  destruct OK as (O1 & O2 & O3). specialize (O1 eq_refl).
  rewrite mk_command_parsed in K by assumption. injection K as <-.
  exists (somes l). rewrite <- has_none_somes by exact N. auto.
Qed.
