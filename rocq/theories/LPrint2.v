From Coq Require Import Ascii String ZifyBool ZifyNat.
From Verif Require Import MBase MCt MPhy MSp MFs MProfile MOperands MSysFiles MAlp MDll MAsDict MPrint SAsDict SPrint LParsed LAsDict LPrint.
Open Scope string_scope.
Open Scope Z_scope.

(** ** printing never fails *)
Lemma pr_addr a : prints (o_addr a). Proof. destruct a as [t c [|z|c'] n]; eexists; reflexivity. Qed.
Lemma pr_status s : prints (o_status s).
Proof. destruct s as [ch ? ? ? ? ? ? ? ? ? ? [t c [|z|c'] n]]; eexists; reflexivity. Qed.
Lemma pr_ic i : prints (o_ic i). Proof. destruct i as [i [[c|c|c]|]]; eexists; reflexivity. Qed.
Lemma pr_iso i : prints (o_iso i).
Proof. destruct i as [i [[ch ? ? ? ? ? ? ? ? ? ? [t c [|z|c'] n]]|]]; eexists; reflexivity. Qed.
Lemma pr_indirect i : prints (o_indirect i). Proof. destruct i as [i [[t c [|z|c'] n]|]]; eexists; reflexivity. Qed.

Lemma joined_ok l : (forall v, In v l -> prints v) -> exists t, joined (map tree l) = Ok t.
Proof.
  induction l as [|v r IH]; intros H; [eexists; reflexivity|]. cbn [map joined].
  destruct (H v (or_introl eq_refl)) as [t E]. unfold str in E. rewrite E. cbn [rbind].
  destruct IH as [t' E']; [intros x I; apply H; right; exact I|]. rewrite E'. cbn [rbind]. eexists. reflexivity.
Qed.
Lemma pr_ap p : prints (o_ap p).
Proof.
  unfold prints, o_ap. rewrite str_obj.
  change (exists t, profile_text (subs [("channel_header", o_ch (ap_header p));
                        ("sub_profiles", PList (map o_subprofile (ap_profiles p)));
                        ("sub_bands", PList (map o_subband (ap_bands p)))]) = Ok t).
  unfold profile_text. cbn [subs map fst snd attr String.eqb Ascii.eqb Bool.eqb rbind tree elems_of].
  destruct (joined_ok (map o_subprofile (ap_profiles p))) as [t1 E1].
  { intros v I. apply in_map_iff in I as (x & <- & _). eexists. reflexivity. }
  destruct (joined_ok (map o_subband (ap_bands p))) as [t2 E2].
  { intros v I. apply in_map_iff in I as (x & <- & _). eexists. reflexivity. }
  rewrite E1. cbn [rbind]. rewrite E2. cbn [rbind]. eexists. reflexivity.
Qed.

(** the list of channel statuses *)
Definition phy_entry (counter : nat) (x y : Text) : Text :=
  ((if Nat.eqb counter 0 then [] else [Lit "; "]) ++ [Lit "identifier="; Sub x; Lit ", noise_floor="; Sub y])%list.
Lemma pr_csi c : prints (o_csi c). Proof. eexists. reflexivity. Qed.
Lemma phy_list_ok ids noise : forall n counter, (counter + n <= length ids)%nat -> (counter + n <= length noise)%nat ->
  exists t, phy_list (map tree (map o_csi ids)) (map tree (map PInt noise)) n counter = Ok t.
Proof.
  induction n as [|n IH]; intros counter H1 H2; [eexists; reflexivity|]. cbn [phy_list]. rewrite !nth_error_map.
  destruct (nth_error ids counter) as [c|] eqn:E1; [|apply nth_error_None in E1; lia].
  destruct (nth_error noise counter) as [z|] eqn:E2; [|apply nth_error_None in E2; lia].
  cbn [option_map]. destruct (pr_csi c) as [x Ex]. unfold str in Ex. rewrite Ex. cbn [rbind tree text_of].
  destruct (IH (S counter)) as [t Et]; [lia|lia|]. rewrite Et. cbn [rbind]. eexists. reflexivity.
Qed.
Lemma phy_list_fails ids noise : forall n counter, (counter + n > length ids \/ counter + n > length noise)%nat -> (counter <= length ids)%nat ->
  (counter <= length noise)%nat ->
  phy_list (map tree (map o_csi ids)) (map tree (map PInt noise)) n counter = Err IndexError.
Proof.
  induction n as [|n IH]; intros counter H H1 H2; [lia|]. cbn [phy_list]. rewrite !nth_error_map.
  destruct (nth_error ids counter) as [c|] eqn:E1; [|reflexivity].
  destruct (nth_error noise counter) as [z|] eqn:E2; cbn [option_map]; destruct (pr_csi c) as [x Ex]; unfold str in Ex; rewrite Ex; cbn [rbind tree text_of]; [|reflexivity].
  rewrite IH; [reflexivity|lia| |]; [assert (counter < length ids)%nat by (apply nth_error_Some; congruence) | assert (counter < length noise)%nat by (apply nth_error_Some; congruence)]; lia.
Qed.
Lemma str_phy f : str (o_file (F_PhyStatus f)) =
  match phy_list (map tree (map o_csi (ps_ids f))) (map tree (map PInt (ps_noise f))) (Z.to_nat (ps_len f)) 0 with
  | Ok l => Ok [Lit "up_time="; Sub [Num (ps_up f)]; Lit ", rx_time="; Sub [Num (ps_rx f)]; Lit ", tx_time="; Sub [Num (ps_tx f)];
                Lit ", tx_duty_cycle="; Sub [Num (ps_duty f)]; Lit ", channel_status_list_length="; Sub [Num (ps_len f)];
                Lit ", list="; Sub (Lit "[" :: l ++ [Lit "]"])%list]
  | Err e => Err e
  end.
Proof.
  unfold o_file. rewrite str_obj. match goal with |- method _ _ ?s = _ => change (phy_text s = match phy_list (map tree (map o_csi (ps_ids f))) (map tree (map PInt (ps_noise f))) (Z.to_nat (ps_len f)) 0 with
  | Ok l => Ok [Lit "up_time="; Sub [Num (ps_up f)]; Lit ", rx_time="; Sub [Num (ps_rx f)]; Lit ", tx_time="; Sub [Num (ps_tx f)];
                Lit ", tx_duty_cycle="; Sub [Num (ps_duty f)]; Lit ", channel_status_list_length="; Sub [Num (ps_len f)];
                Lit ", list="; Sub (Lit "[" :: l ++ [Lit "]"])%list]
  | Err e => Err e end) end.
  unfold phy_text. cbn [app p_file subs map fst snd attr String.eqb Ascii.eqb Bool.eqb rbind tree elems_of number value_of p_ints].
  destruct (phy_list _ _ _ _); reflexivity.
Qed.
Lemma pr_phy f : prints (o_file (F_PhyStatus f)) <-> lists_long_enough f.
Proof.
  unfold prints. rewrite str_phy. unfold lists_long_enough, zlen. split.
  - intros [t H].
    assert (D : (Z.to_nat (ps_len f) <= length (ps_ids f) /\ Z.to_nat (ps_len f) <= length (ps_noise f))%nat
                \/ (0 + Z.to_nat (ps_len f) > length (ps_ids f) \/ 0 + Z.to_nat (ps_len f) > length (ps_noise f))%nat) by lia.
    destruct D as [D|D]; [lia|]. rewrite phy_list_fails in H; [discriminate | exact D | lia | lia].
  - intros [H1 H2]. destruct (phy_list_ok (ps_ids f) (ps_noise f) (Z.to_nat (ps_len f)) 0) as [t E]; [lia | lia|].
    rewrite E. eexists. reflexivity.
Qed.
Lemma phy_index f : ~ lists_long_enough f -> str (o_file (F_PhyStatus f)) = Err IndexError.
Proof.
  intros H. rewrite str_phy. unfold lists_long_enough, zlen in H. rewrite phy_list_fails; [reflexivity | lia | lia | lia].
Qed.

Definition file_ready (f : SysFile) : Prop := match f with F_PhyStatus f => lists_long_enough f | _ => True end.
Lemma str_apf f : prints (o_file (F_AccessProfile f)).
Proof.
  destruct f as [s [p|]]; [|eexists; reflexivity]. destruct (pr_ap p) as [t E].
  exists [Lit "active_specifier="; Sub [Num s]; Lit ", access_profile="; Sub t].
  unfold o_file. rewrite str_obj.
  change (fill (subs ([("access_specifier", PInt s); ("access_profile", o_ap p)] ++ p_file (32 + s) 65)%list)
            [L "active_specifier="; A "access_specifier"; L ", access_profile="; A "access_profile"]
          = Ok [Lit "active_specifier="; Sub [Num s]; Lit ", access_profile="; Sub t]).
  cbn [fill fill_one]. rewrite !attr_subs. cbn [app entry String.eqb Ascii.eqb Bool.eqb]. cbn [rbind].
  unfold str in E. rewrite E. reflexivity.
Qed.
Lemma pr_file f : file_ready f -> prints (o_file f).
Proof.
  destruct f; intros R; try (eexists; reflexivity).
  - apply pr_phy. exact R.
  - apply str_apf.
  - destruct (pr_ic (icf_conf f)) as [t E]. exists [Lit "interface_configuration = "; Sub t].
    unfold o_file. rewrite str_obj.
    match goal with |- method _ _ ?s = _ => change (fill s [L "interface_configuration = "; A "interface_configuration"] = Ok [Lit "interface_configuration = "; Sub t]) end.
    cbn [fill fill_one]. rewrite attr_subs. cbn [entry String.eqb Ascii.eqb Bool.eqb]. cbn [rbind].
    unfold str in E. rewrite E. reflexivity.
Qed.
Lemma extend_long {X} (x : X) n l : n <= zlen (py_extend x n l).
Proof. unfold py_extend, zlen. rewrite app_length, repeat_length. lia. Qed.
Lemma mk_phy_ready up rx tx duty n ids noise f : mk_phy_status up rx tx duty n ids noise = Ok f -> lists_long_enough f.
Proof. unfold mk_phy_status. intros H. apply validated_inv in H as [_ <-]. split; apply extend_long. Qed.
Lemma file_parse_ready e s f s' : file_parse e s = Ok (f, s') -> file_ready f.
Proof.
  intros H. destruct e; cbn [file_parse] in H; try discriminate;
    apply bindp_inv in H as (x & s1 & Hx & H); apply ret_inv in H as [-> _]; cbn [file_ready]; try exact I.
  unfold phy_status_parse in Hx. repeat (apply bindp_inv in Hx as (? & ? & ? & Hx)). apply lift_inv in Hx as [Hx _].
  eapply mk_phy_ready. exact Hx.
Qed.
Lemma try_ready d f : try_parse_system_file d = Some f -> file_ready f.
Proof.
  unfold try_parse_system_file. destruct (system_file _) as [e|]; [|discriminate].
  destruct (file_length e); [|discriminate]. destruct (_ <=? _); [|discriminate].
  destruct (file_parse e _) as [[g s]|] eqn:E; [|discriminate]. intros [= ->]. eapply file_parse_ready. exact E.
Qed.

(** operations: the name of the class and the text of the operand *)
Lemma operand_prints o : prints (op_operand o).
Proof.
  destruct o; cbn [op_operand]; try (eexists; reflexivity); [apply pr_iso | apply pr_ic | apply pr_indirect].
Qed.
Lemma operation_str o : str (o_operation o) = match str (op_operand o) with
  | Ok t => Ok [Lit (op_class o ++ ": "); Sub t] | Err e => Err e end.
Proof.
  destruct o; cbn [op_operand];
    try reflexivity;
    (cbn [o_operation]; rewrite str_obj;
     match goal with |- method (PObj ?c _) _ ?s = _ => change (fill s [L (c ++ ": "); A "operand"] = _) end || idtac;
     match goal with |- method (PObj ?c _) _ ?s = ?r => change (fill s [L (c ++ ": "); A "operand"] = r) | _ => idtac end;
     cbn [fill fill_one]; rewrite attr_subs; cbn [p_operation app entry String.eqb Ascii.eqb Bool.eqb]; cbn [rbind];
     unfold str; destruct (text_of _); reflexivity).
Qed.

(** ** actions *)
Lemma parse_class e s f s' : file_parse e s = Ok (f, s') -> class_of_value (o_file e) = class_of_value (o_file f).
Proof.
  intros H. destruct e; cbn [file_parse] in H; try discriminate;
    apply bindp_inv in H as (x & s1 & _ & H); apply ret_inv in H as [-> _]; reflexivity.
Qed.
Lemma try_class d f : try_parse_system_file d = Some f -> exists e, system_file (off_id (d_offset d)) = Some e
  /\ class_of_value (o_file e) = class_of_value (o_file f) /\ is_none (o_file e) = false /\ is_none (o_file f) = false.
Proof.
  unfold try_parse_system_file. destruct (system_file _) as [e|]; [|discriminate].
  destruct (file_length e); [|discriminate]. destruct (_ <=? _); [|discriminate].
  destruct (file_parse e _) as [[g s]|] eqn:E; [|discriminate]. intros [= ->]. exists e. split; [reflexivity|].
  split; [eapply parse_class; exact E|]. split; [destruct e | destruct f]; reflexivity.
Qed.
Lemma status_str a e : a_kind a = StatusAct e -> str (o_action a) = str (op_operand (a_op a)).
Proof.
  intros K. unfold o_action. rewrite K. rewrite str_obj.
  change (status_text (subs [("status_operand_extension", PInt e); ("operation", o_operation (a_op a))]) = str (op_operand (a_op a))).
  unfold status_text. rewrite attr_subs. cbn [entry String.eqb Ascii.eqb Bool.eqb]. cbn [rbind].
  destruct (a_op a); cbn [o_operation op_operand]; rewrite tree_obj; cbn [attrs_of]; rewrite attr_subs; reflexivity.
Qed.
Lemma action_text_eq k o r : (forall e, k <> StatusAct e) -> r = str (o_action (mkAction k o)) ->
  r = action_text (subs [("operation", o_operation o)]).
Proof.
  intros N ->. unfold o_action. cbn [a_kind a_op]. destruct k; try (exfalso; eapply N; reflexivity);
    rewrite str_obj;
    match goal with |- method _ _ ?s = _ => change (action_text s = action_text (subs [("operation", o_operation o)])) end;
    unfold action_text; rewrite !attr_subs; reflexivity.
Qed.
Lemma plain_action_str a : (forall e, a_kind a <> StatusAct e) -> recognised a = None -> constructed_op (a_op a) ->
  str (o_action a) = str (o_operation (a_op a)).
Proof.
  intros N R C. destruct a as [k o]. cbn [a_kind a_op] in *.
  rewrite (action_text_eq k o _ N eq_refl). unfold action_text. rewrite attr_subs. cbn [entry String.eqb Ascii.eqb Bool.eqb]. cbn [rbind].
  rewrite value_tree. destruct o; try reflexivity.
  assert (parsed = None) as -> by (cbn [constructed_op] in C; unfold recognised in R; cbn [a_kind a_op] in R; destruct k; try congruence; exfalso; eapply N; reflexivity).
  cbn [o_operation class_of_value String.eqb Ascii.eqb Bool.eqb]. set (v := PObj "ReturnFileData" _).
  assert (V : attrs_of (tree v) = subs (attributes v)) by (unfold v; rewrite tree_obj; reflexivity).
  rewrite V, !attr_subs. reflexivity.
Qed.
Lemma received_str a f : recognised a = Some f -> constructed_op (a_op a) ->
  str (o_action a) = match str (o_file f) with
                     | Ok t => Ok [Lit "Received "; Lit (class_of_value (o_file f)); Lit " content: "; Sub t]
                     | Err e => Err e end.
Proof.
  intros R C. destruct a as [k o]. unfold recognised in R. cbn [a_kind a_op] in *.
  assert (N : forall e, k <> StatusAct e) by (intros e ->; discriminate).
  rewrite (action_text_eq k o _ N eq_refl). destruct o; try (destruct k; discriminate).
  assert (T : try_parse_system_file o = Some f) by (destruct k; try exact R; discriminate). clear R. cbn [constructed_op] in C. rewrite T in C. subst parsed.
  destruct (try_class _ _ T) as (e & E1 & E2 & E3 & E4).
  unfold action_text. rewrite attr_subs. cbn [entry String.eqb Ascii.eqb Bool.eqb]. cbn [rbind].
  rewrite value_tree. cbn [o_operation class_of_value String.eqb Ascii.eqb Bool.eqb]. rewrite tree_obj. cbn [attrs_of]. rewrite !attr_subs.
  cbn [app p_operation entry String.eqb Ascii.eqb Bool.eqb]. cbn [rbind]. rewrite !value_tree.
  unfold p_entry. rewrite E1. cbn [p_opt]. rewrite E3, E4. cbn [negb andb]. rewrite E2. unfold str.
  destruct (text_of (tree (o_file f))); reflexivity.
Qed.
Lemma received_class a f : recognised a = Some f -> constructed_op (a_op a) ->
  str (o_action a) = match str (o_file f) with
                     | Ok t => Ok [Lit "Received "; Lit (file_class f); Lit " content: "; Sub t]
                     | Err e => Err e end.
Proof.
  assert (E : class_of_value (o_file f) = file_class f) by (destruct f; reflexivity).
  rewrite <- E. apply received_str.
Qed.
Lemma recognised_ready a f : recognised a = Some f -> file_ready f.
Proof. unfold recognised. destruct (a_kind a), (a_op a); try discriminate; apply try_ready. Qed.
Lemma pr_operation o : prints (o_operation o).
Proof. destruct (operand_prints o) as [t E]. unfold prints. rewrite operation_str, E. eexists. reflexivity. Qed.
Lemma pr_action a : constructed_op (a_op a) -> prints (o_action a).
Proof.
  intros C. assert (D : (exists e, a_kind a = StatusAct e) \/ forall e, a_kind a <> StatusAct e).
  { destruct (a_kind a); try (right; intros; discriminate). left. eexists. reflexivity. }
  unfold prints. destruct D as [[e K]|N].
  - rewrite (status_str a e K). apply operand_prints.
  - destruct (recognised a) as [f|] eqn:R.
    + rewrite (received_str a f R C). destruct (pr_file f (recognised_ready _ _ R)) as [t E]. rewrite E. eexists. reflexivity.
    + rewrite (plain_action_str a N R C). apply pr_operation.
Qed.

(** ** commands *)
Lemma action_lines_ok l : (forall a, In a l -> constructed_op (a_op a)) ->
  exists ts, Forall2 (fun a t => str (o_action a) = Ok t) l ts
    /\ action_lines (map tree (map o_action l)) = Ok (flat_map action_line ts).
Proof.
  induction l as [|a r IH]; intros H; [exists []; split; [constructor | reflexivity]|].
  destruct (pr_action a (H a (or_introl eq_refl))) as [t E].
  destruct IH as (ts & F & E'); [intros x I; apply H; right; exact I|].
  exists (t :: ts). split; [constructor; assumption|]. cbn [map action_lines]. unfold str in E. rewrite E. cbn [rbind].
  rewrite E'. cbn [rbind]. reflexivity.
Qed.
Definition tag_text (c : Command) : Text := match c_tag c with Some n => [Num n] | None => [NoneText] end.
Lemma command_str c : constructed c -> outcome_known c ->
  exists ts, Forall2 (fun a t => str (o_action a) = Ok t) (c_actions c) ts
    /\ exists st, match c_status c with None => st = [] | Some a => exists t, str (o_action a) = Ok t /\ st = [Lit "	interface status: "; Sub t; Lit "
"] end
    /\ str (o_command c) = Ok ([Lit "Command with tag "; Sub (tag_text c); Lit " "; Lit "("; Lit (state_words c); Lit ")"] ++ lines ts ++ st)%list.
Proof.
  intros [C1 C2] O. destruct (action_lines_ok _ C1) as (ts & F & E). exists ts. split; [exact F|].
  assert (S : exists st, match c_status c with None => st = [] | Some a => exists t, str (o_action a) = Ok t /\ st = [Lit "	interface status: "; Sub t; Lit "
"] end /\ (if is_none (p_opt o_action (c_status c)) then Ok [] else
                  let! x := text_of (tree (p_opt o_action (c_status c))) in Ok [Lit "	interface status: "; Sub x; Lit "
"]) = Ok st).
  { destruct (c_status c) as [a|]; [|exists []; split; reflexivity].
    destruct (pr_action a (C2 a eq_refl)) as [t Et]. eexists. split; [exists t; split; [exact Et | reflexivity]|].
    cbn [p_opt]. assert (is_none (o_action a) = false) as -> by (unfold o_action; destruct (a_kind a); reflexivity).
    unfold str in Et. rewrite Et. reflexivity. }
  destruct S as (st & S1 & S2). exists st. split; [exact S1|].
  unfold o_command. rewrite str_obj.
  match goal with |- method _ _ ?s = ?r => change (command_text s = r) end.
  unfold command_text. cbn [fill fill_one]. rewrite !attr_subs.
  cbn [app entry String.eqb Ascii.eqb Bool.eqb]. cbn [rbind]. rewrite !value_tree. rewrite S2. cbn [rbind].
  unfold truth. rewrite value_tree. cbn [tree elems_of]. rewrite E. cbn [rbind].
  assert (T : text_of (tree (p_opt PInt (c_tag c))) = Ok (tag_text c)) by (unfold tag_text; destruct (c_tag c); reflexivity).
  rewrite T. cbn [rbind].
  assert (LL : (match map tree (map o_action (c_actions c)) with [] => [] | _ => [Lit "
	actions:
"] end ++ flat_map action_line ts)%list = lines ts).
  { destruct F; reflexivity. }
  unfold state_words, outcome_known in *. destruct (c_completed c).
  - destruct (c_error c) as [err|]; [|exfalso; apply O; reflexivity].
    cbn [entry String.eqb Ascii.eqb Bool.eqb rbind value_of tree]. rewrite <- LL. destruct err; cbn [app]; rewrite <- !app_assoc; reflexivity.
  - cbn [rbind app]. rewrite <- LL. rewrite <- !app_assoc. reflexivity.
Qed.
Lemma pr_command c : constructed c -> outcome_known c -> prints (o_command c).
Proof. intros C O. destruct (command_str c C O) as (ts & _ & st & _ & E). eexists. exact E. Qed.
Lemma no_outcome c : constructed c -> c_completed c = true -> c_error c = None -> str (o_command c) = Err AttributeError.
Proof.
  intros C H1 H2. unfold o_command. rewrite str_obj. match goal with |- method _ _ ?s = ?r => change (command_text s = r) end.
  unfold command_text. cbn [fill fill_one]. rewrite !attr_subs.
  cbn [app entry String.eqb Ascii.eqb Bool.eqb]. cbn [rbind].
  assert (T : text_of (tree (p_opt PInt (c_tag c))) = Ok (tag_text c)) by (unfold tag_text; destruct (c_tag c); reflexivity).
  rewrite T. cbn [rbind]. rewrite H1, H2. reflexivity.
Qed.

(** ** what the constructor and the parsers produce *)
Lemma add_init_outcome c a c' : outcome_known c -> add_init c a = Ok c' -> outcome_known c'.
Proof.
  unfold outcome_known, add_init. intros O. destruct (a_kind a) as [g r|r|o r|e|r|e x].
  1-3: intros HH; injection HH as <-; exact O.
  - destruct e as [|p|p]; [| |]; try (intros HH; injection HH as <-; exact O).
    destruct p; try (intros HH; injection HH as <-; exact O).
    destruct (c_status c); [discriminate|]. intros [= <-]. exact O.
  - destruct (c_tag c); [discriminate|]. destruct (operand_tag (a_op a)) as [tg|]; cbn [rbind]; [|discriminate].
    intros [= <-]. exact O.
  - destruct (c_tag c); [discriminate|]. destruct (operand_tag (a_op a)) as [tg|]; cbn [rbind]; [|discriminate].
    intros [= <-]. cbn. discriminate.
Qed.
Lemma loop_outcome l : forall c bad c' bad', outcome_known c -> command_loop l c bad = Ok (c', bad') -> outcome_known c'.
Proof.
  induction l as [|[a|] l IH]; intros c bad c' bad' C; cbn [command_loop]; [intros [= <- _]; exact C | |].
  - destruct (add_init c a) as [d|] eqn:E; cbn [rbind]; [|discriminate].
    apply IH. eapply add_init_outcome; eassumption.
  - apply IH; assumption.
Qed.
Lemma mk_command_outcome rnd l g t r c : mk_command rnd l g t r = Ok c -> outcome_known c.
Proof.
  unfold mk_command. destruct (command_loop _ _ _) as [[d bad]|] eqn:E; cbn [rbind]; [|discriminate].
  apply loop_outcome in E; [|intros H; discriminate].
  intros H. apply validated_inv in H as [_ <-]. destruct g, (c_tag d); exact E.
Qed.
Lemma alp_outcome n s c s' : alp_parse n s = Ok (c, s') -> outcome_known c.
Proof.
  unfold alp_parse. intros H. apply bindp_inv in H as (l & s1 & H1 & H2). apply lift_inv in H2 as [H2 _].
  eapply mk_command_outcome. exact H2.
Qed.
Lemma parsed_prints n s c s' : alp_parse n s = Ok (c, s') -> prints (o_command c).
Proof. intros H. apply pr_command; [eapply post_alp; exact H | eapply alp_outcome; exact H]. Qed.
Lemma built_constructed rnd actions gen tag resp c : (forall a, In (Some a) actions -> constructed_op (a_op a)) ->
  mk_command rnd actions gen tag resp = Ok c -> constructed c.
Proof.
  intros H. apply mk_command_constructed. apply Forall_forall. intros [a|] I; [apply H; exact I | exact Logic.I].
Qed.
Lemma built_prints rnd actions gen tag resp c : (forall a, In (Some a) actions -> constructed_op (a_op a)) ->
  mk_command rnd actions gen tag resp = Ok c -> prints (o_command c).
Proof. intros H E. apply pr_command; [eapply built_constructed; eassumption | eapply mk_command_outcome; exact E]. Qed.
Lemma frame_prints f : str (o_frame f) = Ok [Dict (as_dict (o_frame f))].
Proof. destruct f; reflexivity. Qed.
Lemma configuration_prints :
  (forall q, str (o_qos q) = Ok [Dict (as_dict (o_qos q))])
  /\ (forall c, str (o_conf c) = Ok [Dict (as_dict (o_conf c))])
  /\ (forall c, str (o_abp c) = Ok [Dict (as_dict (o_abp c))])
  /\ (forall c, str (o_otaa c) = Ok [Dict (as_dict (o_otaa c))])
  /\ (forall s, str (o_subprofile s) = Ok [Dict (as_dict (o_subprofile s))]).
Proof. repeat split. Qed.
Lemma file_prints f : (forall g, f = F_PhyStatus g -> lists_long_enough g) -> prints (o_file f).
Proof. intros H. apply pr_file. destruct f; try exact I. apply H. reflexivity. Qed.
Lemma parsed_file_prints e s f s' : file_parse e s = Ok (f, s') -> prints (o_file f).
Proof. intros H. apply pr_file. eapply file_parse_ready. exact H. Qed.
Lemma made_phy_prints up rx tx duty n ids noise f : mk_phy_status up rx tx duty n ids noise = Ok f -> prints (o_file (F_PhyStatus f)).
Proof. intros H. apply pr_phy. eapply mk_phy_ready. exact H. Qed.

(** the entries of the list of channels *)
Lemma phy_list_text ids noise : forall n k, (k + n = length ids)%nat -> (k + n = length noise)%nat ->
  phy_list (map tree (map o_csi ids)) (map tree (map PInt noise)) n k
  = Ok (channel_entries (Nat.eqb k 0) (skipn k (combine ids noise))).
Proof.
  induction n as [|n IH]; intros k H1 H2.
  - cbn [phy_list]. rewrite skipn_all2 by (rewrite combine_length; lia). reflexivity.
  - cbn [phy_list]. rewrite !nth_error_map.
    destruct (nth_error ids k) as [c|] eqn:E1; [|apply nth_error_None in E1; lia].
    destruct (nth_error noise k) as [z|] eqn:E2; [|apply nth_error_None in E2; lia].
    cbn [option_map]. destruct (pr_csi c) as [x Ex]. pose proof Ex as Ey. unfold str in Ex. rewrite Ex. cbn [rbind tree text_of leaf].
    rewrite IH by lia. cbn [rbind].
    assert (S : skipn k (combine ids noise) = (c, z) :: skipn (S k) (combine ids noise)).
    { clear - E1 E2. revert ids noise E1 E2. induction k as [|k IH]; intros [|a ids] [|b noise]; cbn; try discriminate.
      - intros [= ->] [= ->]. reflexivity.
      - intros. apply IH; assumption. }
    rewrite S. cbn [channel_entries Nat.eqb]. unfold text_or_nothing. rewrite Ey. reflexivity.
Qed.
Lemma phy_str f : 0 <= ps_len f -> zlen (ps_ids f) = ps_len f -> zlen (ps_noise f) = ps_len f ->
  exists t, str (o_file (F_PhyStatus f)) = Ok t
    /\ fields t = [("up_time", Sub [Num (ps_up f)]); ("rx_time", Sub [Num (ps_rx f)]); ("tx_time", Sub [Num (ps_tx f)]);
                   ("tx_duty_cycle", Sub [Num (ps_duty f)]); ("channel_status_list_length", Sub [Num (ps_len f)]);
                   ("list", Sub ([Lit "["] ++ channel_entries true (combine (ps_ids f) (ps_noise f)) ++ [Lit "]"])%list)].
Proof.
  unfold zlen. intros H0 H1 H2. rewrite str_phy. rewrite phy_list_text by lia. cbn [skipn]. eexists. split; reflexivity.
Qed.

(** channels *)
Lemma channel_str c : exists band cl cod, str (o_cid c) = Ok [Sub [Lit band; Lit cl; Lit cod]; Pad3 (cid_index c)]
  /\ band ++ cl ++ cod = ch_str (cid_header c).
Proof. destruct c as [[cod cl band] i]. do 3 eexists. split; [reflexivity|]. destruct cod, cl, band; reflexivity. Qed.

(** factory settings *)
Lemma factory_values f t : str (o_file (F_Factory f)) = Ok t ->
  filled t = map (fun e => text_or_nothing (snd e)) (firstn 25 (attributes (o_file (F_Factory f)))).
Proof.
  intros H. assert (E : exists u, str (o_file (F_Factory f)) = Ok u
    /\ filled u = map (fun e => text_or_nothing (snd e)) (firstn 25 (attributes (o_file (F_Factory f))))) by (eexists; split; reflexivity).
  destruct E as (u & E & R). rewrite E in H. injection H as <-. exact R.
Qed.
Lemma factory_swapped f t : str (o_file (F_Factory f)) = Ok t ->
  after "
lora sf set to " t = Some (Sub [Num (fs_lora_bw f)]) /\ after ", bw to " t = Some (Sub [Num (fs_lora_sf f)]).
Proof. intros H. assert (E : exists u, str (o_file (F_Factory f)) = Ok u /\ after "
lora sf set to " u = Some (Sub [Num (fs_lora_bw f)]) /\ after ", bw to " u = Some (Sub [Num (fs_lora_sf f)])) by (eexists; repeat split; reflexivity).
  destruct E as (u & E & R). rewrite E in H. injection H as <-. exact R.
Qed.

Lemma factory_refuted : ~ (forall f t, str (o_file (F_Factory f)) = Ok t ->
  after "
lora sf set to " t = Some (Sub [Num (fs_lora_sf f)])).
Proof.
  intros H. destruct (pr_file (F_Factory (mkFactory 0 [] [] [] 0 0 125000 9 0 0)) I) as [t E].
  pose proof (H _ _ E) as H1. destruct (factory_swapped _ _ E) as [H2 _]. rewrite H1 in H2. discriminate.
Qed.
Lemma dll_hidden a b c : forall x y x' y', str (o_file (F_DllConfig (mkDllConfig a b c x y))) = str (o_file (F_DllConfig (mkDllConfig a b c x' y'))).
Proof. reflexivity. Qed.
Lemma flags_hidden o g r g' r' : str (o_action (mkAction (Regular g r) o)) = str (o_action (mkAction (Regular g' r') o)).
Proof.
  assert (N : forall g r e, Regular g r <> StatusAct e) by discriminate.
  rewrite (action_text_eq (Regular g r) o _ (N g r) eq_refl). symmetry. apply (action_text_eq (Regular g' r') o _ (N g' r') eq_refl).
Qed.
Lemma permissions_hidden p : str (o_perm p) = Ok []. Proof. reflexivity. Qed.
Lemma no_own_text : (forall q, str (o_query q) = Ok [Default "QueryOperand"])
  /\ (forall i n, str (o_file (F_NotImpl i n)) = Ok [Default "NotImplementedFile"]).
Proof. split; [intro q; unfold o_query; rewrite str_obj; reflexivity | reflexivity]. Qed.
