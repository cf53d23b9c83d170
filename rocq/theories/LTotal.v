(** Every ALP parser is total: it consumes whole bytes or raises one of a few
    exceptions, and only looks at what it consumes. *)
From Coq Require Import ZifyBool ZifyNat.
From Verif Require Export LGood LCommand.
Ltac Zify.zify_post_hook ::= Z.div_mod_to_equations.

Definition alp_exn (e : exn) : bool :=
  match e with ReadError | BoolEof | ParseError | ValueError | AttributeError | AssertNoMsg => true | _ => false end.

Lemma validated_exn {A} b (x : A) e : validated b x = Err e -> e = ValueError.
Proof. unfold validated. destruct b; congruence. Qed.
Lemma rbind_err {A B} (r : res A) (f : A -> res B) e :
  (let! x := r in f x) = Err e -> r = Err e \/ exists x, r = Ok x /\ f x = Err e.
Proof. destruct r; cbn [rbind]; intros H; [eauto | left; congruence]. Qed.
(** prove that a pure computation only raises allowed exceptions *)
Ltac pure_exn :=
  let e := fresh "e" in let H := fresh "H" in
  intros e H;
  repeat match type of H with
  | validated _ _ = Err _ => apply validated_exn in H; subst e; reflexivity
  | (if ?b then _ else _) = Err _ => destruct b
  | Ok _ = Err _ => discriminate H
  | Err _ = Err _ => injection H as <-; reflexivity
  | rbind _ _ = Err _ => apply rbind_err in H as [H | (? & ? & H)]
  | ?f = Err _ => let h := head_of f in unfold h in H
  end
with head_of t := lazymatch t with ?f _ => head_of f | _ => t end.

Ltac fin := unfold whole, whole1 in *; lia.
Ltac good1 :=
  cbv beta iota zeta;
  lazymatch goal with
  | |- good _ _ _ (bindp (read_uint _) _) => apply good_uint_bind; [reflexivity | intros ? ?]
  | |- good _ _ _ (bindp (read_int _) _) => apply good_int_bind; [reflexivity | intros ?]
  | |- good _ _ _ (bindp (read_pad _) _) => apply good_pad_bind; [reflexivity | intros ?]
  | |- good _ _ _ (bindp read_bool _) => apply good_bool_bind; [reflexivity | intros ?]
  | |- good _ _ _ (bindp (read_bytes _) _) => apply good_bytes_bind; [reflexivity | intros ?]
  | |- good _ _ _ (bindp (lift _) _) => apply good_lift_bind; [try solve [pure_exn] | intros ? ?]
  | |- good _ _ _ (bindp (ret _) _) => apply good_ret_bind
  | |- good _ _ _ (bindp (raise _) _) => apply good_raise_bind; reflexivity
  | |- good _ _ _ (bindp (bindp _ _) _) => apply good_assoc
  | |- good _ _ _ (bindp (if ?b then _ else _) _) => destruct b eqn:?
  | |- good _ _ _ (bindp (match ?x with _ => _ end) _) => destruct x eqn:?
  | |- good _ _ _ (if ?b then _ else _) => destruct b eqn:?
  | |- good _ _ _ (match ?x with _ => _ end) => destruct x eqn:?
  | |- good _ _ _ (lift _) => apply good_lift; [try fin | try solve [pure_exn]]
  | |- good _ _ _ (ret _) => apply good_ret; try fin
  | |- good _ _ _ (raise _) => apply good_raise; reflexivity
  | |- good _ _ _ (read_uint _) => apply good_uint; [reflexivity | try fin]
  | |- good _ _ _ read_bool => apply good_bool; [reflexivity | try fin]
  end.
Ltac good_all := repeat good1.
(** use the lemma [L] for the first parser of a sequence *)
Ltac using_good L := eapply good_bind; [apply L | intros ? ? ?; cbv beta].

Lemma good_ct k : good k (fun n => n = 8%nat) alp_exn ct_parse.
Proof. unfold ct_parse. good_all. Qed.
Lemma ct_compress_exn v c e : ct_compress v c = Err e -> e = ValueError.
Proof.
  unfold ct_compress. generalize 0. generalize 8%nat. intros n. induction n as [|f IH]; intros i H; cbn [ct_compress_from] in H; [discriminate|].
  destruct (v <=? _); [|eapply IH; exact H].
  apply rbind_err in H as [H | (? & _ & H)]; [|discriminate].
  unfold mk_ct in H. apply validated_exn in H. exact H.
Qed.
Lemma good_addr k : good k whole1 alp_exn addr_parse.
Proof.
  unfold addr_parse. good_all;
    try (match goal with |- whole1 _ => destruct a; cbn in * end; fin).
  all: try (intros e H; apply ct_compress_exn in H; subst e; reflexivity).
Qed.
Lemma good_length k : good k whole1 alp_exn length_parse.
Proof. unfold length_parse. good1. change (2 ^ Z.of_nat 2) with 4 in *. good_all. Qed.
Lemma good_offset k : good k whole1 alp_exn offset_parse.
Proof. unfold offset_parse. good1. using_good good_length. good_all. Qed.
Lemma mk_data_exn bs o e : mk_data bs o = Err e -> e = ValueError.
Proof.
  unfold mk_data, mk_length. intros H. apply rbind_err in H as [H | (? & _ & H)]; apply validated_exn in H; exact H.
Qed.
Lemma good_data k : good k whole1 alp_exn data_parse.
Proof.
  unfold data_parse. using_good good_offset. using_good good_length. good1. apply good_lift; [fin|].
  intros e H'. apply mk_data_exn in H'. subst e. reflexivity.
Qed.
Lemma good_dr k : good k whole1 alp_exn dr_parse.
Proof. unfold dr_parse. using_good good_offset. using_good good_length. good_all. Qed.
Lemma good_perm k : good k whole1 alp_exn perm_parse.
Proof. unfold perm_parse. good_all. Qed.
Lemma good_prop k : good k whole1 alp_exn prop_parse.
Proof. unfold prop_parse. good_all. Qed.
Lemma good_fh k : good k whole1 alp_exn fh_parse.
Proof. unfold fh_parse. using_good good_perm. using_good good_prop. good_all. Qed.
Lemma good_fho k : good k whole1 alp_exn fho_parse.
Proof. unfold fho_parse. good1. using_good good_fh. good_all. Qed.
Lemma good_query k : good k whole1 alp_exn query_parse.
Proof.
  unfold query_parse, arith_parse. good_all.
  all: try (using_good good_length; good1; using_good good_offset; good_all).
Qed.
Lemma good_abp k : good k whole1 alp_exn abp_parse.
Proof. unfold abp_parse. good_all. Qed.
Lemma good_otaa k : good k whole1 alp_exn otaa_parse.
Proof. unfold otaa_parse. good_all. Qed.
Lemma good_qos k : good k whole1 alp_exn qos_parse.
Proof. unfold qos_parse. good_all. Qed.
Lemma good_conf k : good k whole1 alp_exn conf_parse.
Proof. unfold conf_parse. using_good good_qos. using_good good_ct. using_good good_addr. good_all. Qed.
Lemma good_cid k : good k whole1 alp_exn cid_parse.
Proof. unfold cid_parse, ch_parse. good_all. Qed.
Lemma good_status k : good k whole1 alp_exn status_parse.
Proof.
  unfold status_parse. using_good good_cid. good_all. using_good good_ct. using_good good_addr. good_all.
Qed.
Lemma mk_action_exn k o e : mk_action k o = Err e -> e = ValueError.
Proof. unfold mk_action. apply validated_exn. Qed.
Ltac act_exn := intros ? ?; match goal with H : mk_action _ _ = Err _ |- _ => apply mk_action_exn in H; subst; reflexivity end.
Lemma good_regular {A} k b7 b6 (p : P A) op : (forall k, good k whole1 alp_exn p) ->
  good k whole alp_exn (parse_regular b7 b6 p op).
Proof. intros H. unfold parse_regular. using_good H. good_all; try act_exn. Qed.
Lemma good_status_action k b7 b6 : good k whole alp_exn (parse_status_action b7 b6).
Proof.
  unfold parse_status_action. good_all; try act_exn.
  using_good good_status. good_all; try act_exn.
Qed.
Lemma good_forward k b7 b6 : good k whole alp_exn (parse_forward_action b7 b6).
Proof.
  unfold parse_forward_action. good_all; try act_exn.
  - using_good good_abp. good_all; try act_exn.
  - using_good good_otaa. good_all; try act_exn.
  - using_good good_conf. good_all; try act_exn.
Qed.
Lemma good_indirect k b7 b6 : good k whole alp_exn (parse_indirect_forward_action b7 b6).
Proof.
  unfold parse_indirect_forward_action. good_all; try act_exn.
  using_good good_addr. good_all; try act_exn.
Qed.
Lemma good_tag_request k b7 b6 : good k whole alp_exn (parse_tag_request_action b7 b6).
Proof. unfold parse_tag_request_action. good_all; try act_exn. Qed.
Lemma good_tag_response k b7 b6 : good k whole alp_exn (parse_tag_response_action b7 b6).
Proof. unfold parse_tag_response_action. good_all; try act_exn. Qed.
Lemma good_shift {A} k (E : exn -> bool) (p : P A) n : (n mod 8 = 0)%nat -> (8 <= n)%nat ->
  good k whole E p -> good k (fun m => whole1 (n + m)) E p.
Proof. intros H1 H2 H. eapply good_weaken; [exact H | reflexivity | intros; fin | auto]. Qed.
Lemma good_action k : good k whole1 alp_exn parse_action.
Proof.
  unfold parse_action. do 3 good1. cbv beta.
  match goal with |- good ?k (fun m => whole1 (1 + (1 + (6 + m)))) ?E ?p =>
    apply (good_weaken k k (fun m => whole1 (8 + m)) _ E E p);
    [| reflexivity | intros; fin | auto] end.
  apply good_shift; [reflexivity | lia|].
  repeat match goal with |- good _ _ _ (if ?b then _ else _) => destruct b end.
  all: first [apply good_regular; intros; first
     [apply good_dr | apply good_data | apply good_query | apply good_fho]
   | apply good_status_action | apply good_tag_response | apply good_forward | apply good_indirect
   | apply good_tag_request | apply good_raise; reflexivity].
Qed.

(** ** The action loop *)
Lemma bytepos_ok s : (pos s mod 8 = 0)%nat -> bytepos s = Ok (Z.of_nat (pos s) / 8, s).
Proof. intros H. unfold bytepos. replace (Z.of_nat (pos s) mod 8 =? 0) with true by lia. reflexivity. Qed.
Definition actions_post (fuel : nat) parsed total s (r : res (list (option Action) * stream)) : Prop :=
  match r with
  | Ok (l, s') =>
      reads s l s' /\
      exists c, bits s = c ++ bits s' /\ pos s' = (pos s + length c)%nat /\ (length c mod 8 = 0)%nat
        /\ total <= parsed + zlen c / 8
        /\ forall x fuel', (length (bits s ++ x) < fuel')%nat ->
             parse_actions fuel' parsed total (ext s x) = Ok (l, ext s' x)
  | Err e => alp_exn e = true /\
      (is_eof e = false -> forall x fuel', (length (bits s ++ x) < fuel')%nat ->
             parse_actions fuel' parsed total (ext s x) = Err e)
  end.
Lemma actions_total fuel : forall parsed total s, (pos s mod 8 = 0)%nat -> (length (bits s) < fuel)%nat ->
  actions_post fuel parsed total s (parse_actions fuel parsed total s).
Proof.
  induction fuel as [|fuel IH]; intros parsed total s Hs Hf; [lia|]. cbn [parse_actions].
  destruct (parsed <? total) eqn:Hp.
  - unfold bindp at 1. rewrite bytepos_ok by exact Hs.
    unfold bindp at 1. pose proof (good_action 0 s Hs) as G.
    destruct (parse_action s) as [[a s1]|e] eqn:Ea.
    + destruct G as (c & Hb & Hpos & [Q1 Q2] & Hx).
      assert (Hs1 : (pos s1 mod 8 = 0)%nat) by lia.
      unfold bindp at 1. rewrite bytepos_ok by exact Hs1. unfold bindp at 1.
      assert (Hf1 : (length (bits s1) < fuel)%nat) by (rewrite Hb, app_length in Hf; lia).
      set (parsed' := parsed + _).
      assert (Ep : parsed' = parsed + zlen c / 8).
      { unfold parsed', zlen. rewrite Hpos. lia. }
      pose proof (IH parsed' total s1 Hs1 Hf1) as P1.
      assert (Step : forall x fuel', (length (bits s ++ x) < fuel')%nat ->
        exists f', fuel' = S f' /\ (length (bits s1 ++ x) < f')%nat
        /\ parse_actions fuel' parsed total (ext s x) =
           (do l <- parse_actions f' parsed' total; ret (a :: l)) (ext s1 x)).
      { intros x fuel' Hf'. destruct fuel' as [|f']; [lia|]. exists f'. split; [reflexivity|].
        rewrite app_length in Hf'. rewrite Hb in Hf'. rewrite app_length in Hf'.
        split; [rewrite app_length; lia|].
        cbn [parse_actions]. rewrite Hp. unfold bindp at 1. rewrite bytepos_ok by exact Hs.
        unfold bindp at 1. rewrite Hx. unfold bindp at 1. rewrite bytepos_ok by exact Hs1. reflexivity. }
      destruct (parse_actions fuel parsed' total s1) as [[l s2]|e] eqn:El; cbn [actions_post] in *.
      * destruct P1 as (R & d & Hb2 & Hpos2 & Q3 & T & Hx2). unfold ret.
        split; [econstructor; eassumption|]. exists (c ++ d). rewrite app_length.
        refine (conj _ (conj _ (conj _ (conj _ _)))).
        -- rewrite Hb, Hb2, app_assoc. reflexivity.
        -- lia.
        -- lia.
        -- unfold zlen in *. rewrite app_length. lia.
        -- intros x fuel' Hf'. destruct (Step x fuel' Hf') as (f' & -> & Hl & ->).
           unfold bindp. rewrite Hx2 by exact Hl. reflexivity.
      * destruct P1 as [E1 Hx2]. split; [exact E1|]. intros Ne x fuel' Hf'.
        destruct (Step x fuel' Hf') as (f' & -> & Hl & ->).
        unfold bindp. rewrite Hx2 by assumption. reflexivity.
    + destruct G as [E1 Hx]. split; [exact E1|]. intros Ne x fuel' Hf'.
      destruct fuel' as [|f']; [lia|]. cbn [parse_actions]. rewrite Hp.
      unfold bindp at 1. rewrite bytepos_ok by exact Hs. unfold bindp at 1. rewrite Hx by exact Ne. reflexivity.
  - unfold ret. cbn [actions_post]. split; [constructor|]. exists []. cbn [app length]. unfold zlen. cbn [length].
    refine (conj _ (conj _ (conj _ (conj _ _)))); [reflexivity | lia | reflexivity | lia |].
    intros x fuel' Hf'. destruct fuel' as [|f']; [lia|]. cbn [parse_actions]. rewrite Hp. reflexivity.
Qed.
Lemma command_loop_exn l : forall c b e, command_loop l c b = Err e -> alp_exn e = true.
Proof.
  induction l as [|[a|] l IH]; intros c b e H; cbn [command_loop] in H; [discriminate | | eapply IH; exact H].
  apply rbind_err in H as [H | (c' & _ & H)]; [|eapply IH; exact H].
  unfold add_init in H. destruct (a_kind a) as [| | |z| |].
  1-3: discriminate.
  - destruct (c_status c), z as [|q|q]; try discriminate; try (injection H as <-; reflexivity); destruct q; try discriminate;
    injection H as <-; reflexivity.
  - destruct (c_tag c); [injection H as <-; reflexivity|].
    apply rbind_err in H as [H | (? & _ & H)]; [|discriminate].
    unfold operand_tag in H. destruct (a_op a); try discriminate; injection H as <-; reflexivity.
  - destruct (c_tag c); [injection H as <-; reflexivity|].
    apply rbind_err in H as [H | (? & _ & H)]; [|discriminate].
    unfold operand_tag in H. destruct (a_op a); try discriminate; injection H as <-; reflexivity.
Qed.
Lemma mk_command_exn rnd l g t r e : mk_command rnd l g t r = Err e -> alp_exn e = true.
Proof.
  unfold mk_command. intros H. apply rbind_err in H as [H | ([c b] & _ & H)].
  - eapply command_loop_exn; exact H.
  - apply validated_exn in H. subst e. reflexivity.
Qed.
Lemma alp_total n s : (pos s mod 8 = 0)%nat ->
  match alp_parse n s with
  | Ok (c, s') =>
      exists l d, reads s l s' /\ mk_command 0 l false None true = Ok c
        /\ bits s = d ++ bits s' /\ pos s' = (pos s + length d)%nat /\ (length d mod 8 = 0)%nat
        /\ n <= zlen d / 8 /\ forall x, alp_parse n (ext s x) = Ok (c, ext s' x)
  | Err e => alp_exn e = true /\ (is_eof e = false -> forall x, alp_parse n (ext s x) = Err e)
  end.
Proof.
  intros Hs. unfold alp_parse. destruct (n =? 0) eqn:En.
  - unfold bindp at 1. unfold ret at 1. destruct (mk_command 0 [] false None true) as [c|e] eqn:Ec; cbn [lift].
    + exists [], []. cbn [app length]. unfold zlen. cbn [length].
      refine (conj (reads_nil s) (conj Ec (conj eq_refl (conj _ (conj eq_refl (conj _ _)))))); [lia | lia |].
      intros x. unfold bindp, ret. rewrite Ec. reflexivity.
    + split; [eapply mk_command_exn; exact Ec|]. intros _ x. unfold bindp, ret. rewrite Ec. reflexivity.
  - unfold bindp at 1. pose proof (actions_total (S (length (bits s))) 0 n s Hs (Nat.lt_succ_diag_r _)) as T.
    destruct (parse_actions _ 0 n s) as [[l s1]|e] eqn:Ea; cbn [actions_post] in T.
    + destruct T as (R & d & Hb & Hpos & Q & L & Hx).
      assert (X : forall x, parse_actions (S (length (bits (ext s x)))) 0 n (ext s x) = Ok (l, ext s1 x)).
      { intros x. apply Hx. cbn [ext bits]. lia. }
      unfold lift at 1. destruct (mk_command 0 l false None true) as [c|e] eqn:Ec.
      * exists l, d. refine (conj R (conj Ec (conj Hb (conj Hpos (conj Q (conj L _)))))).
        intros x. unfold bindp. rewrite X, Ec. reflexivity.
      * split; [eapply mk_command_exn; exact Ec|]. intros _ x. unfold bindp. rewrite X, Ec. reflexivity.
    + destruct T as [E1 Hx]. split; [exact E1|]. intros Ne x. unfold bindp.
      rewrite Hx; [reflexivity | exact Ne |]. cbn [ext bits]. lia.
Qed.

Lemma good_alp n : good 0 (fun m => whole m /\ n <= Z.of_nat m / 8) alp_exn (alp_parse n).
Proof.
  intros s Hs. pose proof (alp_total n s Hs) as T. destruct (alp_parse n s) as [[c s']|e]; [|exact T].
  destruct T as (l & d & _ & _ & Hb & Hpos & Q & L & Hx). exists d.
  refine (conj Hb (conj Hpos (conj (conj Q L) Hx))).
Qed.
