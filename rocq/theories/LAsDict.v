From Coq Require Import String ZifyBool ZifyNat.
From Verif Require Import MBase MCt MPhy MSp MFs MProfile MOperands MSysFiles MAlp MDll MAsDict SAsDict LParsed.
Open Scope string_scope.
Open Scope Z_scope.

(** ** the definition, unfolded once *)
Definition item (e : string * Value) : list (string * Value) :=
  match snd e with PClass _ => [] | a => [(fst e, shown a)] end.
Lemma as_dict_obj c attrs : as_dict (PObj c attrs) = PDict (("__CLASS__", PName c) :: flat_map item attrs).
Proof.
  cbn [as_dict]. do 2 f_equal. induction attrs as [|[k a] r IH]; [reflexivity|].
  destruct a; cbn [flat_map item snd fst shown app]; rewrite <- IH; reflexivity.
Qed.
Lemma plain_dict l : plain_data (PDict l) = forallb (fun e => plain_data (snd e)) l.
Proof. cbn [plain_data]. induction l as [|[k x] r IH]; cbn [forallb snd]; [reflexivity | rewrite <- IH; reflexivity]. Qed.
Lemma tidy_obj c attrs : tidy (PObj c attrs) = names_ok attrs && forallb (fun e => tidy (snd e)) attrs.
Proof.
  cbn [tidy]. f_equal. induction attrs as [|[k x] r IH]; cbn [forallb snd]; [reflexivity | rewrite <- IH; reflexivity].
Qed.
Definition obj_or_plain (e : Value) : bool :=
  plain_data e || match e with PObj _ _ => tidy e | _ => false end.
Lemma tidy_list l : tidy (PList l) = forallb obj_or_plain l.
Proof. reflexivity. Qed.
Definition show_item (e : Value) : Value := match e with PObj _ _ => as_dict e | _ => e end.

(** ** induction over values *)
Section Ind.
  Variable Q : Value -> Prop.
  Hypothesis HList : forall l, Forall Q l -> Q (PList l).
  Hypothesis HDict : forall l, Forall (fun e => Q (snd e)) l -> Q (PDict l).
  Hypothesis HObj : forall c l, Forall (fun e => Q (snd e)) l -> Q (PObj c l).
  Hypothesis HLeaf : forall v, match v with PList _ | PDict _ | PObj _ _ => False | _ => True end -> Q v.
  Fixpoint value_ind' (v : Value) : Q v :=
    match v with
    | PList l => HList l ((fix go l : Forall Q l :=
        match l with [] => Forall_nil _ | x :: r => Forall_cons _ (value_ind' x) (go r) end) l)
    | PDict l => HDict l ((fix go l : Forall (fun e => Q (snd e)) l :=
        match l with [] => Forall_nil _ | x :: r => Forall_cons _ (value_ind' (snd x)) (go r) end) l)
    | PObj c l => HObj c l ((fix go l : Forall (fun e => Q (snd e)) l :=
        match l with [] => Forall_nil _ | x :: r => Forall_cons _ (value_ind' (snd x)) (go r) end) l)
    | PNone => HLeaf PNone I | PBool b => HLeaf (PBool b) I | PInt z => HLeaf (PInt z) I
    | PText s => HLeaf (PText s) I | PName s => HLeaf (PName s) I | PMember e z => HLeaf (PMember e z) I
    | PClass n => HLeaf (PClass n) I | POther n => HLeaf (POther n) I
    end.
End Ind.

(** ** exports of tidy trees *)
Lemma plain_show e : plain_data e = true -> show_item e = e.
Proof. destruct e; try reflexivity; discriminate. Qed.
Lemma shown_plain v : plain_data v = true -> shown v = v.
Proof.
  destruct v; try reflexivity; try discriminate. cbn [plain_data shown]. intros H. f_equal.
  rewrite <- (map_id l) at 2. apply map_ext_in. intros e I. change (show_item e = e). apply plain_show.
  rewrite forallb_forall in H. auto.
Qed.
Lemma tidy_shown_plain v : tidy v = true -> ~ is_class v -> plain_data (shown v) = true.
Proof.
  induction v as [l IH | l IH | c l IH | v L] using value_ind'.
  - rewrite tidy_list. intros H _. cbn [shown plain_data]. rewrite forallb_forall in *. intros x I.
    apply in_map_iff in I as (e & <- & I). specialize (H e I). unfold obj_or_plain in H.
    rewrite Forall_forall in IH. destruct (plain_data e) eqn:E.
    + change (plain_data (show_item e) = true). rewrite plain_show by exact E. exact E.
    + destruct e; try discriminate H. apply (IH _ I H). intros [n X]. discriminate X.
  - intros H _. exact H.
  - rewrite tidy_obj. intros H _. apply andb_true_iff in H as [_ H]. cbn [shown]. rewrite as_dict_obj, plain_dict.
    cbn [forallb snd plain_data andb]. rewrite forallb_forall in *. intros x I.
    apply in_flat_map in I as ([k a] & I & J). rewrite Forall_forall in IH. specialize (IH _ I). specialize (H _ I).
    cbn [snd] in IH, H. unfold item in J. cbn [snd fst] in J.
    destruct a; cbn [In] in J; try contradiction; destruct J as [<-|[]]; apply IH; try exact H; intros [n X]; discriminate X.
  - intros H N. destruct v; try contradiction; try exact H. exfalso. apply N. eexists. reflexivity.
Qed.

(** *** along paths *)
Lemma entry_items k l : names_ok l = true ->
  entry k (flat_map item l) =
  match entry k l with Some (PClass _) => None | Some a => Some (shown a) | None => None end.
Proof.
  induction l as [|[n a] r IH]; cbn [names_ok flat_map entry]; [reflexivity|].
  intros H. apply andb_true_iff in H as [H H3]. apply andb_true_iff in H as [H1 H2]. specialize (IH H3).
  assert (F : String.eqb n k = true -> entry k (flat_map item r) = None).
  { intros E. apply String.eqb_eq in E as ->. rewrite IH.
    assert (N : entry k r = None).
    { clear - H2. apply negb_true_iff in H2. induction r as [|[m b] r IH]; cbn [existsb entry fst] in *; [reflexivity|].
      apply orb_false_iff in H2 as [H2 H3]. rewrite H2. auto. }
    rewrite N. reflexivity. }
  destruct (String.eqb n k) eqn:E.
  - unfold item at 1. cbn [snd fst]. destruct a; cbn [app entry]; rewrite ?E; try reflexivity. apply F. reflexivity.
  - unfold item at 1. cbn [snd fst]. destruct a; cbn [app entry]; rewrite ?E; exact IH.
Qed.
Lemma entry_class l : names_ok l = true -> entry "__CLASS__" l = None.
Proof.
  induction l as [|[n a] r IH]; cbn [names_ok entry]; [reflexivity|].
  intros H. apply andb_true_iff in H as [H H3]. apply andb_true_iff in H as [H1 _].
  apply negb_true_iff in H1. rewrite H1. auto.
Qed.
Lemma plain_child v s x : plain_data v = true -> child v s = Some x -> plain_data x = true.
Proof.
  destruct v, s; try discriminate; cbn [child].
  - cbn [plain_data]. rewrite forallb_forall. intros H E. apply H. eapply nth_error_In. exact E.
  - rewrite plain_dict. induction items as [|[k a] r IH]; cbn [forallb snd entry]; [discriminate|].
    intros H. apply andb_true_iff in H as [H1 H2]. destruct (String.eqb k name); [intros [= ->]; exact H1 | auto].
Qed.
Lemma plain_tidy v : plain_data v = true -> tidy v = true.
Proof.
  destruct v; try discriminate; try (intros; assumption). rewrite tidy_list. cbn [plain_data].
  rewrite !forallb_forall. intros H x I. unfold obj_or_plain. rewrite (H x I). reflexivity.
Qed.
Lemma tidy_child v s x : tidy v = true -> child v s = Some x -> tidy x = true.
Proof.
  intros H. destruct v; try discriminate.
  - destruct s; [discriminate|]. cbn [child]. rewrite tidy_list, forallb_forall in H. intros E.
    apply nth_error_In in E. specialize (H _ E). unfold obj_or_plain in H. destruct (plain_data x) eqn:P.
    + apply plain_tidy. exact P.
    + destruct x; try discriminate. exact H.
  - intros E. apply plain_tidy. eapply plain_child; [exact H | exact E].
  - destruct s; [|discriminate]. cbn [child]. rewrite tidy_obj in H. apply andb_true_iff in H as [_ H].
    induction attrs as [|[k a] r IH]; cbn [entry forallb snd] in *; [discriminate|].
    apply andb_true_iff in H as [H1 H2]. destruct (String.eqb k name); [intros [= ->]; exact H1 | auto].
Qed.
(** one step *)
Lemma step_forth v s a : tidy v = true -> child v s = Some a -> ~ is_class a -> child (shown v) s = Some (shown a).
Proof.
  intros T C N. destruct v; try (destruct s; discriminate C).
  - destruct s as [k|n]; [discriminate|]. cbn [shown child] in *. rewrite nth_error_map, C. cbn [option_map]. f_equal.
    rewrite tidy_list, forallb_forall in T. specialize (T a (nth_error_In _ _ C)). unfold obj_or_plain in T.
    change (show_item a = shown a). destruct (plain_data a) eqn:P.
    + rewrite plain_show, shown_plain by exact P. reflexivity.
    + destruct a; try discriminate. reflexivity.
  - pose proof (plain_child _ _ _ T C) as P. rewrite (shown_plain a P). exact C.
  - destruct s as [k|n]; [|discriminate]. cbn [shown]. rewrite as_dict_obj. cbn [child entry] in *.
    rewrite tidy_obj in T. apply andb_true_iff in T as [T _].
    destruct (String.eqb "__CLASS__" k) eqn:E.
    + apply String.eqb_eq in E. subst. rewrite entry_class in C by exact T. discriminate.
    + rewrite entry_items, C by exact T. destruct a; try reflexivity. exfalso. apply N. eexists. reflexivity.
Qed.
Lemma step_back v s y : tidy v = true -> child (shown v) s = Some y ->
  (exists a, child v s = Some a /\ ~ is_class a /\ y = shown a)
  \/ (exists c attrs, v = PObj c attrs /\ s = Attr "__CLASS__" /\ y = PName c).
Proof.
  intros T C. destruct v; try (destruct s; discriminate C).
  - left. destruct s as [k|n]; [discriminate|]. cbn [shown child] in *. rewrite nth_error_map in C.
    destruct (nth_error l n) as [a|] eqn:E; [|discriminate]. cbn [option_map] in C. injection C as <-.
    rewrite tidy_list, forallb_forall in T. specialize (T a (nth_error_In _ _ E)). unfold obj_or_plain in T.
    exists a. split; [reflexivity|]. change (~ is_class a /\ show_item a = shown a). destruct (plain_data a) eqn:P.
    + rewrite plain_show, shown_plain by exact P. split; [|reflexivity]. intros [m ->]. discriminate.
    + destruct a; try discriminate. split; [intros [m X]; discriminate | reflexivity].
  - left. exists y. cbn [shown] in C. pose proof (plain_child _ _ _ T C) as P. rewrite (shown_plain y P).
    split; [exact C|]. split; [intros [m ->]; discriminate | reflexivity].
  - destruct s as [k|n]; cbn [shown] in C; rewrite as_dict_obj in C; [|discriminate]. cbn [child entry] in *.
    rewrite tidy_obj in T. apply andb_true_iff in T as [T _].
    destruct (String.eqb "__CLASS__" k) eqn:E.
    + right. apply String.eqb_eq in E. subst. injection C as <-. eauto.
    + left. rewrite entry_items in C by exact T. destruct (entry k attrs) as [a|]; [|discriminate].
      exists a. split; [reflexivity|]. destruct a; try discriminate; injection C as <-; (split; [intros [m X]; discriminate | reflexivity]).
Qed.
Lemma path_forth p : forall v x, tidy v = true -> reach v p = Some x -> ~ is_class x ->
  reach (shown v) p = Some (shown x).
Proof.
  induction p as [|s p IH]; intros v x T R N; cbn [reach] in *; [injection R as ->; reflexivity|].
  destruct (child v s) as [y|] eqn:C; [|discriminate].
  assert (Y : ~ is_class y).
  { intros [n ->]. destruct p as [|[k|m] p]; cbn [reach child] in R; try discriminate. injection R as <-. apply N. eexists. reflexivity. }
  rewrite (step_forth _ _ _ T C Y). apply IH; [eapply tidy_child; eassumption | exact R | exact N].
Qed.
Lemma path_back p : forall v y, tidy v = true -> ~ is_class v -> reach (shown v) p = Some y ->
  (exists x, reach v p = Some x /\ ~ is_class x /\ y = shown x)
  \/ (exists q c attrs, p = (q ++ [Attr "__CLASS__"])%list /\ reach v q = Some (PObj c attrs) /\ y = PName c).
Proof.
  induction p as [|s p IH]; intros v y T NC R; cbn [reach] in *; [injection R as <-; left; eauto|].
  destruct (child (shown v) s) as [z|] eqn:C; [|discriminate].
  destruct (step_back _ _ _ T C) as [(a & Ca & Na & ->) | (c & attrs & -> & -> & ->)].
  - destruct (IH a y (tidy_child _ _ _ T Ca) Na R) as [(x & Rx & Nx & ->) | (q & c & attrs & -> & Rq & ->)].
    + left. exists x. rewrite Ca. auto.
    + right. exists (s :: q), c, attrs. cbn [reach app]. rewrite Ca. auto.
  - destruct p as [|[k|m] p]; cbn [reach child] in R; try discriminate. injection R as <-.
    right. exists [], c, attrs. auto.
Qed.

(** ** library objects are tidy *)
Lemma tidy_obj_intro c attrs : names_ok attrs = true -> forallb (fun e => tidy (snd e)) attrs = true -> tidy (PObj c attrs) = true.
Proof. intros H1 H2. rewrite tidy_obj, H1, H2. reflexivity. Qed.
Lemma tidy_ints l : tidy (p_ints l) = true.
Proof.
  apply plain_tidy. cbn [p_ints plain_data]. rewrite forallb_forall. intros x I.
  apply in_map_iff in I as (z & <- & _). reflexivity.
Qed.
Lemma tidy_objs {A} (f : A -> Value) l : (forall x, In x l -> match f x with PObj _ _ => tidy (f x) | _ => false end = true) ->
  tidy (PList (map f l)) = true.
Proof.
  intros H. rewrite tidy_list, forallb_forall. intros x I. apply in_map_iff in I as (e & <- & I).
  unfold obj_or_plain. rewrite H by exact I. apply orb_true_r.
Qed.
Ltac tidy_fields :=
  apply tidy_obj_intro; [reflexivity|]; cbn [forallb snd app p_file p_operation];
  repeat match goal with |- andb _ _ = true => apply andb_true_intro; split end; try reflexivity; auto.
Lemma t_ct c : tidy (o_ct c) = true. Proof. reflexivity. Qed.
Lemma t_ch c : tidy (o_ch c) = true. Proof. reflexivity. Qed.
Lemma t_cid c : tidy (o_cid c) = true. Proof. reflexivity. Qed.
Lemma t_addr a : tidy (o_addr a) = true.
Proof. unfold o_addr. tidy_fields. destruct (ad_id a); reflexivity. Qed.
Lemma t_conf c : tidy (o_conf c) = true.
Proof. unfold o_conf. pose proof (t_addr (cf_addressee c)). tidy_fields. Qed.
Lemma t_status c : tidy (o_status c) = true.
Proof. unfold o_status. pose proof (t_addr (st_addressee c)). tidy_fields. Qed.
Lemma t_ap c : tidy (o_ap c) = true.
Proof. unfold o_ap. tidy_fields; apply tidy_objs; intros x _; reflexivity. Qed.
Lemma t_fho c : tidy (o_fho c) = true. Proof. reflexivity. Qed.
Lemma t_data c : tidy (o_data c) = true.
Proof. unfold o_data. tidy_fields. apply tidy_ints. Qed.
Lemma t_query c : tidy (o_query c) = true.
Proof. unfold o_query. tidy_fields. apply tidy_ints. Qed.
Lemma t_ic c : tidy (o_ic c) = true.
Proof. unfold o_ic. tidy_fields. destruct (ic_conf c) as [[d|d|d]|]; try reflexivity. apply t_conf. Qed.
Lemma t_iso c : tidy (o_iso c) = true.
Proof. unfold o_iso. tidy_fields. destruct (iso_status c); try reflexivity. apply t_status. Qed.
Lemma t_indirect c : tidy (o_indirect c) = true.
Proof. unfold o_indirect. tidy_fields. destruct (ii_overload c); try reflexivity. apply t_addr. Qed.
Lemma t_file f : (forall i n, f <> F_NotImpl i n) -> tidy (o_file f) = true.
Proof.
  intros N. destruct f; cbn [o_file]; try reflexivity.
  - tidy_fields; [apply tidy_objs; intros x _; reflexivity | apply tidy_ints].
  - tidy_fields. destruct (apf_profile f); [apply t_ap | reflexivity].
  - exfalso. eapply N. reflexivity.
  - pose proof (t_ic (icf_conf f)). destruct (icf_length f); tidy_fields.
Qed.
Lemma parsed_file e s f s' : file_parse e s = Ok (f, s') ->
  (forall i n, f <> F_NotImpl i n) /\ (forall i n, e <> F_NotImpl i n).
Proof.
  intros H. destruct e; cbn [file_parse] in H; try discriminate;
    apply bindp_inv in H as (x & s1 & _ & H); apply ret_inv in H as [-> _]; split; intros; discriminate.
Qed.
Lemma try_parsed d f : try_parse_system_file d = Some f ->
  (forall i n, f <> F_NotImpl i n) /\ exists e, system_file (off_id (d_offset d)) = Some e /\ forall i n, e <> F_NotImpl i n.
Proof.
  unfold try_parse_system_file. destruct (system_file _) as [e|]; [|discriminate].
  destruct (file_length e); [|discriminate]. destruct (_ <=? _); [|discriminate].
  destruct (file_parse e _) as [[g s]|] eqn:E; [|discriminate]. intros [= ->].
  apply parsed_file in E as [E1 E2]. eauto.
Qed.
Lemma t_operation o : constructed_op o -> tidy (o_operation o) = true.
Proof.
  destruct o; cbn [o_operation constructed_op]; intros C; try reflexivity;
    try (pose proof (t_data o); tidy_fields; fail); try (pose proof (t_query o); tidy_fields; fail);
    try (pose proof (t_ic o); tidy_fields; fail); try (pose proof (t_iso o); tidy_fields; fail);
    try (pose proof (t_indirect o); tidy_fields; fail).
  pose proof (t_data o). unfold p_entry. destruct parsed as [f|].
  - symmetry in C. apply try_parsed in C as [C1 (e & E & C2)]. rewrite E.
    pose proof (t_file f C1). pose proof (t_file e C2). tidy_fields.
  - tidy_fields.
Qed.
Lemma t_action a : constructed_op (a_op a) -> match o_action a with PObj _ _ => tidy (o_action a) | _ => false end = true.
Proof. intros C. pose proof (t_operation _ C). unfold o_action. destruct (a_kind a); tidy_fields. Qed.
Lemma t_action' a : constructed_op (a_op a) -> tidy (o_action a) = true.
Proof. intros C. pose proof (t_action a C) as H. destruct (o_action a); try discriminate. exact H. Qed.
Lemma t_command c : constructed c -> tidy (o_command c) = true.
Proof.
  intros [C1 C2]. unfold o_command.
  assert (tidy (PList (map o_action (c_actions c))) = true) by (apply tidy_objs; intros; apply t_action; auto).
  assert (tidy (p_opt o_action (c_status c)) = true).
  { destruct (c_status c) as [a|]; [|reflexivity]. apply t_action'. auto. }
  assert (tidy (p_opt PInt (c_tag c)) = true) by (destruct (c_tag c); reflexivity).
  destruct (c_error c); tidy_fields.
Qed.
Lemma t_frame f : frame_constructed f -> tidy (o_frame f) = true.
Proof.
  intros C. destruct f as [f|f]; [|reflexivity]. specialize (C _ eq_refl). apply t_command in C.
  cbn [o_frame]. pose proof (tidy_ints (ff_target f)).
  assert (tidy (o_np (ff_np f)) = true).
  { unfold o_np. pose proof (tidy_ints (nf_origin (ff_np f))).
    assert (tidy (o_tp (nf_tp (ff_np f))) = true).
    { unfold o_tp. set (t := nf_tp (ff_np f)) in *.
      assert (forall o, tidy (p_opt o_ct o) = true) by (intros [|]; reflexivity).
      assert (tidy (p_opt (fun p => p_ints [fst p; snd p]) (tf_ack t)) = true) by (destruct (tf_ack t); reflexivity).
      tidy_fields. }
    tidy_fields. }
  tidy_fields.
Qed.

(** ** what the parsers and constructors produce *)
Definition oconstructed (a : option Action) : Prop := match a with Some a => constructed_op (a_op a) | None => True end.
Lemma post_constructed_action : post oconstructed parse_action.
Proof.
  apply (post_weaken _ _ _ post_action). intros [a|]; [|trivial]. destruct a as [k o]. cbn [oconstructed oact_parsed a_op].
  unfold act_parsed. cbn [a_kind a_op]. intros [W _]. destruct o; cbn [constructed_op]; try exact I. destruct W as [_ W]. exact W.
Qed.
Lemma post_constructed_actions n : forall p l, post (Forall oconstructed) (parse_actions n p l).
Proof.
  induction n as [|n IH]; intros p l; cbn [parse_actions]; [apply post_raise|].
  destruct (p <? l); [|apply post_ret; constructor].
  eapply post_bind; [apply post_true | intros st _]. eapply post_bind; [apply post_constructed_action | intros act Ha].
  eapply post_bind; [apply post_true | intros en _]. eapply post_bind; [apply IH | intros r Hr].
  apply post_ret. constructor; assumption.
Qed.
Lemma add_init_constructed c a c' : constructed c -> constructed_op (a_op a) -> add_init c a = Ok c' -> constructed c'.
Proof.
  intros [C1 C2] A. unfold add_init.
  assert (App : forall x, In x (c_actions c ++ [a])%list -> constructed_op (a_op x)).
  { intros x I. apply in_app_or in I as [I|[<-|[]]]; auto. }
  destruct (a_kind a) as [g r|r|o r|e|r|e x].
  all: try (intros HH; injection HH as <-; split; cbn [c_actions c_status]; auto; fail).
  - destruct e as [|p|p]; [| |]; try (intros HH; injection HH as <-; split; cbn [c_actions c_status]; auto; fail).
    destruct p; try (intros HH; injection HH as <-; split; cbn [c_actions c_status]; auto; fail).
    destruct (c_status c); [discriminate|]. intros [= <-]. split; cbn [c_actions c_status]; auto. intros x [= <-]. exact A.
  - destruct (c_tag c); [discriminate|]. destruct (operand_tag (a_op a)) as [tg|]; cbn [rbind]; [|discriminate].
    intros [= <-]. split; cbn [c_actions c_status]; auto.
  - destruct (c_tag c); [discriminate|]. destruct (operand_tag (a_op a)) as [tg|]; cbn [rbind]; [|discriminate].
    intros [= <-]. split; cbn [c_actions c_status]; auto.
Qed.
Lemma loop_constructed l : forall c bad c' bad', Forall oconstructed l -> constructed c ->
  command_loop l c bad = Ok (c', bad') -> constructed c'.
Proof.
  induction l as [|[a|] l IH]; intros c bad c' bad' F C; cbn [command_loop]; [intros [= <- _]; exact C | |].
  - inversion F; subst. destruct (add_init c a) as [d|] eqn:E; cbn [rbind]; [|discriminate].
    apply IH; [assumption|]. eapply add_init_constructed; eassumption.
  - inversion F; subst. apply IH; assumption.
Qed.
Lemma mk_command_constructed rnd l g t r c : Forall oconstructed l -> mk_command rnd l g t r = Ok c -> constructed c.
Proof.
  intros F. unfold mk_command. destruct (command_loop _ _ _) as [[d bad]|] eqn:E; cbn [rbind]; [|discriminate].
  apply loop_constructed in E; [|exact F | split; [intros a [] | discriminate]].
  intros H. apply validated_inv in H as [_ <-]. destruct g, (c_tag d); exact E.
Qed.
Lemma post_alp n : post constructed (alp_parse n).
Proof.
  unfold alp_parse. intros s. revert s.
  intros s c s' H. apply bindp_inv in H as (l & s1 & H1 & H2). apply lift_inv in H2 as [H2 _].
  eapply mk_command_constructed; [|exact H2].
  destruct (n =? 0); [apply ret_inv in H1 as [-> _]; constructor | eapply post_constructed_actions; exact H1].
Qed.
Lemma post_tp n : post (fun f => constructed (tf_cmd f)) (tp_parse n).
Proof.
  unfold tp_parse. intros s f s' H.
  repeat (apply bindp_inv in H as (? & ? & ? & H); cbv zeta in H).
  apply lift_inv in H as [H _]. unfold mk_tp_frame in H. apply validated_inv in H as [_ <-]. cbn [tf_cmd].
  match goal with E : alp_parse _ _ = Ok _ |- _ => exact (post_alp _ _ _ _ E) end.
Qed.
Lemma post_np n : post (fun f => constructed (tf_cmd (nf_tp f))) (np_parse n).
Proof.
  unfold np_parse. intros s f s' H.
  repeat (apply bindp_inv in H as (? & ? & ? & H); cbv zeta in H).
  apply lift_inv in H as [H _]. unfold mk_np_frame in H. apply validated_inv in H as [_ <-]. cbn [nf_tp].
  match goal with E : tp_parse _ _ = Ok _ |- _ => exact (post_tp _ _ _ _ E) end.
Qed.
Lemma post_frame fg : post frame_constructed (dframe_parse fg).
Proof.
  unfold dframe_parse. intros s f s' H. destruct fg.
  - apply bindp_inv in H as (x & s1 & H1 & H). apply ret_inv in H as [-> _].
    unfold fg_parse in H1. repeat (apply bindp_inv in H1 as (? & ? & ? & H1); cbv zeta in H1).
    apply lift_inv in H1 as [H1 _]. unfold mk_fg_frame in H1. apply validated_inv in H1 as [_ <-].
    intros c [= <-]. cbn [ff_np]. match goal with E : np_parse _ _ = Ok _ |- _ => exact (post_np _ _ _ _ E) end.
  - apply bindp_inv in H as (x & s1 & H1 & H). apply ret_inv in H as [-> _]. intros c [=].
Qed.
