From Coq Require Import Ascii String ZifyBool ZifyNat.
From Verif Require Import MBase MCt MPhy MSp MFs MProfile MOperands MSysFiles MAlp MAsDict MPrint MDescribe SAsDict SPrint SDescribe LParsed LAsDict LPrint LPrint2 LPrint3.
Open Scope string_scope.
Open Scope Z_scope.

(** ** which texts surely begin and end with something else than comma or blank *)
Definition solidb (c : Z) : bool := negb (stripped c).
Lemma solidb_ok c : solidb c = true <-> solid c.
Proof. unfold solidb, stripped, solid. lia. Qed.
Fixpoint good_end (s : Seg) : bool :=
  match s with
  | Lit l => solidb (last (codes l) 32)
  | Chars _ => false
  | Sub t => last (map good_end t) false
  | _ => true
  end.
Fixpoint good_begin (s : Seg) : bool :=
  match s with
  | Lit l => solidb (hd 32 (codes l))
  | Chars _ => false
  | Sub t => hd false (map good_begin t)
  | _ => true
  end.
Lemma app_ends l m : ends_solid m -> ends_solid (l ++ m)%list.
Proof. intros (r & c & -> & H). exists (l ++ r)%list, c. split; [apply app_assoc | exact H]. Qed.
Lemma app_begins l m : begins_solid l -> begins_solid (l ++ m)%list.
Proof. intros (c & r & -> & H). exists c, (r ++ m)%list. split; [reflexivity | exact H]. Qed.

Section Seg_ind.
  Variable P : Seg -> Prop.
  Hypothesis HL : forall s, P (Lit s).
  Hypothesis HC : forall l, P (Chars l).
  Hypothesis HA : forall s, atomic s -> P s.
  Hypothesis HS : forall t, Forall P t -> P (Sub t).
  Fixpoint Seg_ind' (s : Seg) : P s :=
    match s with
    | Lit l => HL l
    | Chars l => HC l
    | Sub t => HS t ((fix go (t : list Seg) : Forall P t :=
                        match t with [] => Forall_nil P | x :: r => Forall_cons x (Seg_ind' x) (go r) end) t)
    | Num z => HA (Num z) I | Hex z => HA (Hex z) I | Pad3 z => HA (Pad3 z) I | Truth b => HA (Truth b) I
    | Member e z => HA (Member e z) I | Nums l => HA (Nums l) I | NoneText => HA NoneText I
    | Dict v => HA (Dict v) I | Default c => HA (Default c) I
    end.
End Seg_ind.

Lemma last_split {A} (l : list A) d : l = [] \/ exists r, l = (r ++ [last l d])%list.
Proof.
  destruct l as [|x r]; [left; reflexivity|]. right. exists (removelast (x :: r)). apply app_removelast_last. discriminate.
Qed.
Lemma written_end leaf : tidy leaf -> forall s, good_end s = true -> ends_solid (written leaf s).
Proof.
  intros T s. induction s as [l|l|s A|t IH] using Seg_ind'; intros H.
  - cbn [good_end written] in *. destruct (last_split (codes l) 32) as [E|[r E]].
    + rewrite E in H. discriminate H.
    + exists r, (last (codes l) 32). split; [exact E | apply solidb_ok, H].
  - discriminate H.
  - destruct s; try destruct A; apply T; exact I.
  - cbn [good_end written] in *. destruct (last_split t NoneText) as [->|[r E]]; [discriminate H|].
    rewrite E in *. rewrite map_app in H. cbn [map] in H. rewrite last_last in H.
    rewrite flat_map_app. cbn [flat_map]. rewrite app_nil_r. apply app_ends.
    apply Forall_app in IH as [_ IH]. inversion IH; subst. auto.
Qed.
Lemma written_begin leaf : tidy leaf -> forall s, good_begin s = true -> begins_solid (written leaf s).
Proof.
  intros T s. induction s as [l|l|s A|t IH] using Seg_ind'; intros H.
  - cbn [good_begin written] in *. destruct (codes l) as [|c r]; [discriminate H|].
    exists c, r. split; [reflexivity | apply solidb_ok, H].
  - discriminate H.
  - destruct s; try destruct A; apply T; exact I.
  - cbn [good_begin written] in *. destruct t as [|x r]; [discriminate H|]. cbn [flat_map map hd] in *.
    apply app_begins. inversion IH; subst. auto.
Qed.
Lemma text_end leaf t : tidy leaf -> good_end (Sub t) = true -> ends_solid (characters_of leaf t).
Proof. intros T H. exact (written_end leaf T (Sub t) H). Qed.
Lemma text_begin leaf t : tidy leaf -> good_begin (Sub t) = true -> begins_solid (characters_of leaf t).
Proof. intros T H. exact (written_begin leaf T (Sub t) H). Qed.

(** ** the texts of the objects *)
Definition ends_well (v : Value) : Prop := forall t, str v = Ok t -> good_end (Sub t) = true.
Definition begins_well (v : Value) : Prop := forall t, str v = Ok t -> good_begin (Sub t) = true.
Ltac well := let t := fresh "t" in let H := fresh "H" in intros t H;
  match type of H with str ?v = _ => let r := eval vm_compute in (str v) in change (r = Ok t) in H end;
  injection H as <-; reflexivity.
Lemma we_addr a : ends_well (o_addr a) /\ begins_well (o_addr a).
Proof. destruct a as [t c [|z|c'] n]; split; well. Qed.
Lemma we_dr a : ends_well (o_dr a) /\ begins_well (o_dr a). Proof. destruct a; split; well. Qed.
Lemma we_fid a : ends_well (o_fid a) /\ begins_well (o_fid a). Proof. destruct a; split; well. Qed.
Lemma we_data a : ends_well (o_data a) /\ begins_well (o_data a). Proof. destruct a; split; well. Qed.
Lemma we_fho a : ends_well (o_fho a) /\ begins_well (o_fho a). Proof. destruct a as [i h]; destruct h; split; well. Qed.
Lemma we_query a : ends_well (o_query a) /\ begins_well (o_query a). Proof. split; well. Qed.
Lemma we_tag a : ends_well (o_tag a) /\ begins_well (o_tag a). Proof. destruct a; split; well. Qed.
Lemma we_ic i : ends_well (o_ic i) /\ begins_well (o_ic i).
Proof. destruct i as [i [[c|c|c]|]]; split; intros t H; cbn in H; injection H as <-; reflexivity. Qed.
Lemma we_iso i : ends_well (o_iso i) /\ begins_well (o_iso i).
Proof. destruct i as [i [[ch ? ? ? ? ? ? ? ? ? ? [t c [|z|c'] n]]|]]; split; intros t0 H; cbn in H; injection H as <-; reflexivity. Qed.
Lemma we_indirect i : ends_well (o_indirect i) /\ begins_well (o_indirect i).
Proof. destruct i as [i [[t c [|z|c'] n]|]]; split; intros t0 H; cbn in H; injection H as <-; reflexivity. Qed.
Lemma we_operand o : ends_well (op_operand o) /\ begins_well (op_operand o).
Proof.
  destruct o; cbn [op_operand]; auto using we_dr, we_fid, we_data, we_fho, we_query, we_tag, we_ic, we_iso, we_indirect.
  split; well.
Qed.
Lemma good_end_sub t u : good_end (Sub u) = true -> good_end (Sub (t ++ [Sub u])) = true.
Proof. intros H. change (last (map good_end (t ++ [Sub u])) false = true). rewrite map_app; cbn [map]; rewrite last_last. exact H. Qed.
Lemma we_operation o : ends_well (o_operation o) /\ begins_well (o_operation o).
Proof.
  destruct (we_operand o) as [E _]. split; intros t; rewrite operation_str; destruct (str (op_operand o)) as [u|] eqn:Eu; try discriminate;
    intros [= <-].
  - exact (good_end_sub [Lit (op_class o ++ ": ")] u (E _ Eu)).
  - destruct o; reflexivity.
Qed.
Lemma we_sb b : ends_well (o_subband b).
Proof. destruct b; well. Qed.
Lemma chars_sub leaf t u : characters_of leaf (t ++ [Sub u])%list = (characters_of leaf t ++ characters_of leaf u)%list.
Proof. unfold characters_of. rewrite flat_map_app. cbn [flat_map written]. rewrite app_nil_r. reflexivity. Qed.
(** a list of sub bands may be empty *)
Lemma ap_end leaf p t : tidy leaf -> str (o_ap p) = Ok t -> ends_solid (characters_of leaf t).
Proof.
  intros T H. destruct (profile_str p) as (h & bs & _ & B & E). rewrite E in H. injection H as <-.
  match goal with |- context [characters_of leaf [?a; ?b; ?c; ?d; ?e; Sub ?f]] => change [a; b; c; d; e; Sub f] with ([a; b; c; d; e] ++ [Sub f])%list end.
  rewrite chars_sub. destruct (last_split bs []) as [->|[r Er]].
  - cbn [map]. change (characters_of leaf []) with (@nil Z). rewrite app_nil_r. apply text_end; [exact T | reflexivity].
  - apply app_ends. rewrite Er in *. apply Forall2_app_inv_r in B as (l1 & l2 & _ & B & _). inversion B as [|x y l l' Hx]; subst.
    rewrite map_app. cbn [map]. rewrite chars_sub. apply app_ends. apply text_end; [exact T|]. exact (we_sb _ _ Hx).
Qed.
Definition git_loose (f : SysFile) : Prop :=
  match f with F_Fw f => exists git c, fw_git f = (git ++ [c])%list /\ (c = 44 \/ c = 32) | _ => False end.
Lemma file_end leaf f t : tidy leaf -> ~ git_loose f -> str (o_file f) = Ok t -> ends_solid (characters_of leaf t).
Proof.
  intros T N. destruct f;
    try (intros H; apply text_end; [exact T|]; revert H; destruct f; revert t; well).
  - (* firmware *) destruct f as [a b c d app git]. intros H.
    match type of H with str ?v = _ => let r := eval vm_compute in (str v) in change (r = Ok t) in H end. injection H as <-.
    match goal with |- context [characters_of leaf ?l] => change (characters_of leaf l) with (characters_of leaf (removelast l ++ [Sub [Chars git]])%list) end.
    rewrite chars_sub. cbn [removelast]. unfold characters_of at 2. cbn [flat_map written]. rewrite app_nil_r.
    destruct (last_split git 0) as [->|[r E]].
    + rewrite app_nil_r. apply text_end; [exact T | reflexivity].
    + apply app_ends. exists r, (last git 0). split; [exact E|]. unfold solid. split; intros Ec; apply N; cbn [git_loose fw_git];
        exists r, (last git 0); (split; [exact E | auto]).
  - (* PHY status *) intros H. rewrite str_phy in H. destruct (phy_list _ _ _ _) as [l|]; [|discriminate]. injection H as <-.
    apply text_end; [exact T|]. cbn [good_end]. change (last (map good_end (Lit "[" :: l ++ [Lit "]"])) false = true).
    rewrite app_comm_cons, map_app. cbn [map]. rewrite last_last. reflexivity.
  - (* access profile *) destruct f as [s [p|]]; [|intros H; apply text_end; [exact T|]; revert H; revert t; well].
    destruct (pr_ap p) as [u E]. intros H.
    assert (S : str (o_file (F_AccessProfile (mkAPF s (Some p)))) = Ok [Lit "active_specifier="; Sub [Num s]; Lit ", access_profile="; Sub u]).
    { unfold o_file. rewrite str_obj.
      change (fill (subs ([("access_specifier", PInt s); ("access_profile", o_ap p)] ++ p_file (32 + s) 65)%list)
                [L "active_specifier="; A "access_specifier"; L ", access_profile="; A "access_profile"]
              = Ok [Lit "active_specifier="; Sub [Num s]; Lit ", access_profile="; Sub u]).
      cbn [fill fill_one]. rewrite !attr_subs. cbn [app entry String.eqb Ascii.eqb Bool.eqb]. cbn [rbind].
      unfold str in E. rewrite E. reflexivity. }
    rewrite S in H. injection H as <-.
    change (ends_solid (characters_of leaf ([Lit "active_specifier="; Sub [Num s]; Lit ", access_profile="] ++ [Sub u])%list)).
    rewrite chars_sub. apply app_ends. exact (ap_end leaf p u T E).
  - (* interface configuration *) destruct (we_ic (icf_conf f)) as [W _]. destruct (pr_ic (icf_conf f)) as [u E]. intros H.
    assert (S : str (o_file (F_IfConfig f)) = Ok [Lit "interface_configuration = "; Sub u]).
    { unfold o_file. rewrite str_obj.
      match goal with |- method _ _ ?s = _ => change (fill s [L "interface_configuration = "; A "interface_configuration"] = Ok [Lit "interface_configuration = "; Sub u]) end.
      cbn [fill fill_one]. rewrite attr_subs. cbn [entry String.eqb Ascii.eqb Bool.eqb]. cbn [rbind].
      unfold str in E. rewrite E. reflexivity. }
    rewrite S in H. injection H as <-. apply text_end; [exact T|]. exact (good_end_sub [Lit "interface_configuration = "] u (W _ E)).
Qed.
Lemma action_begin leaf a t : tidy leaf -> constructed_op (a_op a) -> str (o_action a) = Ok t -> begins_solid (characters_of leaf t).
Proof.
  intros T C H. apply text_begin; [exact T|].
  destruct (recognised a) as [f|] eqn:R.
  - rewrite (received_str a f R C) in H. destruct (str (o_file f)); [|discriminate H]. injection H as <-. reflexivity.
  - assert (D : (exists e, a_kind a = StatusAct e) \/ forall e, a_kind a <> StatusAct e)
      by (destruct (a_kind a); [right; discriminate.. | left; eexists; reflexivity | right; discriminate | right; discriminate]).
    destruct D as [[e K]|K].
    + rewrite (status_str a e K) in H. exact (proj2 (we_operand (a_op a)) _ H).
    + rewrite (plain_action_str a K R C) in H. exact (proj2 (we_operation (a_op a)) _ H).
Qed.
Lemma action_end leaf a t : tidy leaf -> constructed_op (a_op a) -> (forall f, recognised a = Some f -> ~ git_loose f) ->
  str (o_action a) = Ok t -> ends_solid (characters_of leaf t).
Proof.
  intros T C N H.
  destruct (recognised a) as [f|] eqn:R.
  - rewrite (received_str a f R C) in H. destruct (str (o_file f)) as [u|] eqn:Eu; [|discriminate H]. injection H as <-.
    change (ends_solid (characters_of leaf ([Lit "Received "; Lit (class_of_value (o_file f)); Lit " content: "] ++ [Sub u])%list)).
    rewrite chars_sub. apply app_ends. exact (file_end leaf f u T (N _ eq_refl) Eu).
  - apply text_end; [exact T|].
    assert (D : (exists e, a_kind a = StatusAct e) \/ forall e, a_kind a <> StatusAct e)
      by (destruct (a_kind a); [right; discriminate.. | left; eexists; reflexivity | right; discriminate | right; discriminate]).
    destruct D as [[e K]|K].
    + rewrite (status_str a e K) in H. exact (proj1 (we_operand (a_op a)) _ H).
    + rewrite (plain_action_str a K R C) in H. exact (proj1 (we_operation (a_op a)) _ H).
Qed.

(** ** [strip] *)
Lemma stripped_spec c : stripped c = true <-> c = 44 \/ c = 32.
Proof. unfold stripped. lia. Qed.
Lemma lstrip_solid l : begins_solid l -> lstrip_codes l = l.
Proof. intros (c & r & -> & [H1 H2]). cbn [lstrip_codes]. destruct (stripped c) eqn:E; [apply stripped_spec in E; lia | reflexivity]. Qed.
Lemma lstrip_trim l : exists d, l = (d ++ lstrip_codes l)%list /\ Forall (fun c => c = 44 \/ c = 32) d
  /\ (lstrip_codes l = [] \/ begins_solid (lstrip_codes l)).
Proof.
  induction l as [|c r IH]; [exists []; repeat split; auto|]. cbn [lstrip_codes]. destruct (stripped c) eqn:E.
  - destruct IH as (d & D & F & B). exists (c :: d). split; [cbn [app]; congruence|]. split; [constructor; [apply stripped_spec, E | exact F] | exact B].
  - exists []. split; [reflexivity|]. split; [constructor|]. right. exists c, r. split; [reflexivity|]. unfold solid, stripped in *. lia.
Qed.
Lemma rev_begins l : begins_solid l -> ends_solid (rev l).
Proof. intros (c & r & -> & H). exists (rev r), c. split; [reflexivity | exact H]. Qed.
Lemma rev_ends l : ends_solid l -> begins_solid (rev l).
Proof. intros (r & c & -> & H). exists c, (rev r). split; [apply rev_app_distr | exact H]. Qed.
Lemma strip_sep l : begins_solid l -> strip_codes (l ++ [44; 32]) = strip_codes l.
Proof.
  intros B. unfold strip_codes. rewrite (lstrip_solid l B), (lstrip_solid (l ++ [44; 32]) (app_begins _ _ B)).
  rewrite rev_app_distr. reflexivity.
Qed.
Lemma strip_solid l : begins_solid l -> ends_solid l -> strip_codes l = l.
Proof.
  intros B E. unfold strip_codes. rewrite (lstrip_solid l B), (lstrip_solid (rev l)) by (apply rev_ends, E). apply rev_involutive.
Qed.
Lemma strip_trimmed l : begins_solid l -> trimmed l (strip_codes l).
Proof.
  intros B. unfold strip_codes. rewrite (lstrip_solid l B). destruct (lstrip_trim (rev l)) as (d & D & F & X). split.
  - destruct X as [->|X]; [left; reflexivity | right; apply rev_begins, X].
  - exists (rev d). split; [|apply Forall_rev, F]. rewrite <- (rev_involutive l), D at 1. apply rev_app_distr.
Qed.

(** ** the listing *)
Lemma listing_snoc l x : listing (l ++ [x])%list = (flat_map (fun y => y ++ [44; 32]) l ++ x)%list.
Proof.
  induction l as [|y r IH]; [reflexivity|]. cbn [app flat_map]. rewrite <- app_assoc, <- IH.
  destruct (r ++ [x])%list eqn:E; [destruct r; discriminate E|]. change (listing (y :: l :: l0)) with (y ++ [44; 32] ++ listing (l :: l0))%list.
  rewrite app_assoc. reflexivity.
Qed.
Lemma descriptions_ok leaf l : (forall a, In a l -> constructed_op (a_op a)) -> forall d,
  descriptions leaf (map o_action l) d
  = Ok (d ++ flat_map (fun y => y ++ [44; 32]) (map (fun a => characters_of leaf (text_or_nothing (o_action a))) l))%list.
Proof.
  induction l as [|a r IH]; intros C d; cbn [map descriptions flat_map]; [rewrite app_nil_r; reflexivity|].
  destruct (pr_action a (C a (or_introl eq_refl))) as [t E]. unfold text_or_nothing at 1. rewrite E. cbn [rbind].
  rewrite IH by (intros x I; apply C; right; exact I). rewrite <- !app_assoc. reflexivity.
Qed.
Lemma text_is v t : str v = Ok t -> text_or_nothing v = t.
Proof. intros E. unfold text_or_nothing. rewrite E. reflexivity. Qed.
Lemma described leaf c : tidy leaf -> constructed c ->
  exists d, describe_actions leaf c = Ok d
    /\ trimmed (listing (action_texts leaf c)) d
    /\ (~ loose_end c -> d = listing (action_texts leaf c)).
Proof.
  intros T [C _]. unfold describe_actions. rewrite descriptions_ok by exact C. cbn [rbind app].
  eexists. split; [reflexivity|]. fold (action_texts leaf c).
  unfold action_texts. destruct (c_actions c) as [|a0 r0] eqn:Ea.
  - split; [|reflexivity]. split; [left; reflexivity|]. exists []. repeat split. constructor.
  - assert (N : a0 :: r0 <> []) by discriminate. rewrite <- Ea in N. rewrite <- Ea.
    destruct (exists_last N) as (l & a & El). rewrite El in *. rewrite <- Ea in C. rewrite map_app. cbn [map].
    rewrite listing_snoc, flat_map_app. cbn [flat_map]. rewrite app_nil_r.
    set (txt := fun a => characters_of leaf (text_or_nothing (o_action a))).
    assert (Bg : forall x, In x (l ++ [a]) -> begins_solid (txt x)).
    { intros x I. destruct (pr_action x (C x I)) as [t E]. unfold txt. rewrite (text_is _ _ E). exact (action_begin leaf x t T (C x I) E). }
    change (characters_of leaf (text_or_nothing (o_action a))) with (txt a).
    rewrite app_assoc.
    assert (Bl : begins_solid (flat_map (fun y => y ++ [44; 32]) (map txt l) ++ txt a)%list).
    { destruct l as [|y r]; cbn [map flat_map app].
      - apply Bg. left. reflexivity.
      - apply app_begins. apply app_begins. apply app_begins. apply Bg. left. reflexivity. }
    rewrite strip_sep by exact Bl. split; [apply strip_trimmed, Bl|].
    intros NL. apply strip_solid; [exact Bl|]. apply app_ends.
    assert (I : In a (l ++ [a])) by (apply in_or_app; right; left; reflexivity).
    destruct (pr_action a (C a I)) as [t E]. unfold txt. rewrite (text_is _ _ E).
    apply (action_end leaf a t T (C a I)); [|exact E]. intros f R G. apply NL.
    destruct f; cbn [git_loose] in G; try contradiction. destruct G as (git & ch & G1 & G2). exists l, a, f, git, ch. auto.
Qed.

(** ** a loose end is lost *)
Lemma fw_text f : exists t, str (o_file (F_Fw f)) = Ok (t ++ [Sub [Chars (fw_git f)]])%list.
Proof.
  destruct f as [a b c d app git]. match goal with |- exists t, str ?v = _ => let r := eval vm_compute in (str v) in change (exists t, r = Ok (t ++ [Sub [Chars git]])%list) end.
  match goal with |- exists t, Ok ?l = _ => exists (removelast l) end. reflexivity.
Qed.
Lemma loose_lost leaf c d : tidy leaf -> constructed c -> loose_end c -> describe_actions leaf c = Ok d ->
  d <> listing (action_texts leaf c).
Proof.
  intros T C (before & a & f & git & x & Ea & R & G & X) H.
  destruct (described leaf c T C) as (d' & H' & [Tr _] & _). rewrite H in H'. injection H' as <-. intros E.
  destruct C as [C _].
  assert (Ca : constructed_op (a_op a)) by (apply C; rewrite Ea; apply in_or_app; right; left; reflexivity).
  assert (L : exists r, listing (action_texts leaf c) = (r ++ [x])%list).
  { unfold action_texts. rewrite Ea, map_app. cbn [map]. rewrite listing_snoc.
    pose proof (received_str a _ R Ca) as S. destruct (fw_text f) as [t Et]. rewrite Et in S. rewrite (text_is _ _ S).
    match goal with |- context [characters_of leaf ?l] => change (characters_of leaf l) with
      (characters_of leaf ([Lit "Received "; Lit (class_of_value (o_file (F_Fw f))); Lit " content: "] ++ [Sub (t ++ [Sub [Chars (fw_git f)]])])%list) end.
    rewrite !chars_sub, G. replace (characters_of leaf [Chars (git ++ [x])]) with (git ++ [x])%list by (cbn; rewrite app_nil_r; reflexivity).
    rewrite !app_assoc. eexists. reflexivity. }
  destruct L as [r L]. rewrite L in E. destruct Tr as [Tr|(r' & y & Ed & [S1 S2])]; rewrite E in *.
  - destruct r; discriminate Tr.
  - apply app_inj_tail in Ed as [_ <-]. lia.
Qed.
Lemma parsed_constructed n s c s' : alp_parse n s = Ok (c, s') -> constructed c.
Proof. intros H. exact (post_alp n _ _ _ H). Qed.
Lemma sample_tidy : tidy sample_leaf.
Proof.
  intros s A. unfold begins_solid, ends_solid, solid.
  destruct s as [l|z|z|z|b|e z|l|l| |v|k|t]; try destruct A; cbn [sample_leaf]; (split; [do 2 eexists; (split; [reflexivity|])| exists []; eexists; (split; [reflexivity|])]); lia.
Qed.

Lemma lists_actions leaf c : tidy leaf -> constructed c -> ~ loose_end c ->
  describe_actions leaf c = Ok (listing (action_texts leaf c)).
Proof. intros T C N. destruct (described leaf c T C) as (d & -> & _ & E). rewrite (E N). reflexivity. Qed.
Lemma trimmed_listing leaf c : tidy leaf -> constructed c ->
  exists d, describe_actions leaf c = Ok d /\ trimmed (listing (action_texts leaf c)) d.
Proof. intros T C. destruct (described leaf c T C) as (d & E & Tr & _). exists d. auto. Qed.
Lemma received_described leaf n s c s' : tidy leaf -> alp_parse n s = Ok (c, s') ->
  exists d, describe_actions leaf c = Ok d /\ trimmed (listing (action_texts leaf c)) d.
Proof. intros T H. exact (trimmed_listing leaf c T (parsed_constructed _ _ _ _ H)). Qed.
Lemma describe_case : tidy sample_leaf /\
  exists c s', alp_parse 8 (stream_of [1; 6; 0; 3; 1; 7; 4; 2]) = Ok (c, s') /\ ~ loose_end c
    /\ describe_actions sample_leaf c
       = Ok (codes "ReadFileData: file-id=6, offset=0, length=3, ReadFileData: file-id=7, offset=4, length=2").
Proof.
  split; [exact sample_tidy|]. do 2 eexists. split; [vm_compute; reflexivity|]. split; [|vm_compute; reflexivity].
  intros (b & a & f & git & x & E & R & _). cbn [c_actions] in E. destruct b as [|y [|z b]]; try discriminate E.
  - cbn [app] in E. injection E as _ <-. discriminate R.
  - destruct b; discriminate E.
Qed.
Lemma describe_loose_case :
  exists c s', alp_parse 21 (stream_of [32; 2; 0; 17; 1; 1; 0; 1; 97; 98; 99; 100; 101; 102; 49; 50; 51; 32; 32; 32; 32]) = Ok (c, s')
    /\ loose_end c /\ constructed c
    /\ describe_actions sample_leaf c
       = Ok (codes "Received FirmwareVersionFile content: d7ap v1.1, filesystem v0.1, application_name=abcdef, git_sha1=123").
Proof.
  assert (H : exists c s', alp_parse 21 (stream_of [32; 2; 0; 17; 1; 1; 0; 1; 97; 98; 99; 100; 101; 102; 49; 50; 51; 32; 32; 32; 32]) = Ok (c, s'))
    by (do 2 eexists; vm_compute; reflexivity).
  destruct H as (c & s' & H). exists c, s'. split; [exact H|]. split; [|split; [exact (parsed_constructed _ _ _ _ H)|]];
    vm_compute in H; injection H as <- <-; [|vm_compute; reflexivity].
  eexists [], _, _, [49; 50; 51; 32; 32; 32], 32. split; [reflexivity|]. split; [vm_compute; reflexivity|]. split; [reflexivity | right; reflexivity].
Qed.
Lemma complete_refuted : ~ (forall leaf n s c s', tidy leaf -> alp_parse n s = Ok (c, s') ->
  describe_actions leaf c = Ok (listing (action_texts leaf c))).
Proof.
  intros H. destruct describe_loose_case as (c & s' & P & L & C & _).
  exact (loose_lost sample_leaf c _ sample_tidy C L (H _ _ _ _ _ sample_tidy P) eq_refl).
Qed.
Lemma built_described leaf rnd actions gen tag resp c : tidy leaf -> (forall a, In (Some a) actions -> constructed_op (a_op a)) ->
  mk_command rnd actions gen tag resp = Ok c ->
  exists d, describe_actions leaf c = Ok d /\ trimmed (listing (action_texts leaf c)) d.
Proof. intros T A H. exact (trimmed_listing leaf c T (built_constructed _ _ _ _ _ _ A H)). Qed.
