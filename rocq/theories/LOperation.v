From Coq Require Import String Lia.
From Verif Require Import MBase MOperands MSysFiles MAlp MSchema SSchema MOperation SOperation.
Open Scope string_scope.
Open Scope Z_scope.

Lemma isinstance_iff v k : isinstance v k = true <-> instance_of v k.
Proof.
  split.
  - destruct v; cbn [isinstance]; intro H; try discriminate.
    + apply String.eqb_eq in H. subst. constructor.
    + apply Bool.orb_true_iff in H. destruct H as [H|H].
      * apply String.eqb_eq in H. subst. constructor.
      * apply existsb_exists in H. destruct H as [x [I E]]. apply String.eqb_eq in E. subst. constructor. exact I.
  - intro H. destruct H; cbn [isinstance].
    + rewrite String.eqb_refl. reflexivity.
    + apply String.eqb_refl.
    + apply Bool.orb_true_iff. right. apply existsb_exists. exists p. split; [exact H|apply String.eqb_refl].
Qed.

Lemma init_some k v : operation_init (Some k) v =
  match v with VNone => Err ValueError | _ => if isinstance v k then Ok v else Err ValueError end.
Proof. unfold operation_init. destruct v; cbn [negb andb orb]; try reflexivity;
  destruct (isinstance _ k); reflexivity. Qed.

Lemma none_is_no_instance k : ~ instance_of VNone k.
Proof. intro H. inversion H. Qed.

Lemma made o c arg : class_of_operation o c -> outcome o arg (make_operation c arg).
Proof.
  intros [I N].
  assert (Some_case : forall op k name, oc_op c = op -> oc_operand c = Some k -> oc_name c = name ->
            String.eqb name "NoOperation" = false ->
            match arg with
            | Some v => (instance_of v k /\ make_operation c arg = Ok (op, v))
                        \/ (~ instance_of v k /\ make_operation c arg = Err ValueError)
            | None => make_operation c arg = Err (if String.eqb name "InterfaceStatus" then TypeError else ValueError)
            end).
  { intros op k name E1 E2 E3 Hn. unfold make_operation. rewrite E1, E2, E3, Hn. cbn [andb].
    destruct arg as [v|].
    - rewrite Bool.andb_false_r. rewrite init_some.
      destruct (isinstance v k) eqn:Ei.
      + left. split; [apply isinstance_iff; exact Ei|]. destruct v; try reflexivity. discriminate Ei.
      + right. split; [intro H; apply isinstance_iff in H; congruence|]. destruct v; reflexivity.
    - rewrite Bool.andb_true_r. destruct (String.eqb name "InterfaceStatus"); [reflexivity|]. rewrite init_some. reflexivity. }
  unfold operation_classes in I. cbn [In] in I.
  repeat (destruct I as [E|I]; [subst c|]); [..|destruct I];
    (destruct o; try discriminate N; clear N; unfold outcome, operand_class; cbn [v_operand op_code];
     first [ destruct arg; reflexivity
           | specialize (Some_case _ _ _ eq_refl eq_refl eq_refl eq_refl); destruct arg; exact Some_case ]).
Qed.

Lemma every_operation o : exists c, class_of_operation o c.
Proof.
  assert (H : exists i, (i < length operation_classes)%nat
                        /\ v_operation o = VObject (oc_name (nth i operation_classes (mkOpClass "" 0 None)))).
  { exists (match o with NoOperation => 0 | ReadFileData _ => 1 | ReadFileHeader _ => 2 | WriteFileData _ => 3
      | WriteFileHeader _ => 4 | BreakQuery _ => 5 | CreateNewFile _ => 6 | ReturnFileData _ _ => 7
      | ReturnFileHeader _ => 8 | InterfaceStatus _ => 9 | TagResponse _ => 10 | Forward _ => 11
      | IndirectForward _ => 12 | TagRequest _ => 13 end)%nat.
    destruct o; (split; [cbn; lia|reflexivity]). }
  destruct H as [i [Hi E]]. eexists. split; [apply nth_In; exact Hi|exact E].
Qed.

Lemma one_class o c c' : class_of_operation o c -> class_of_operation o c' -> c = c'.
Proof.
  intros [I N] [I' N']. rewrite N in N'. injection N' as E. clear N.
  unfold operation_classes in *. cbn [In] in I, I'.
  repeat (destruct I as [<-|I]; [repeat (destruct I' as [<-|I']; [first [reflexivity|discriminate E]|]); destruct I'|]).
  destruct I.
Qed.

Lemma codes_tell o o' : op_code o = op_code o' <-> v_operation o = v_operation o'.
Proof. destruct o, o'; cbn; split; intro H; try reflexivity; discriminate H. Qed.
Lemma code_bits o : 0 <= op_code o < 64.
Proof. destruct o; cbn; lia. Qed.

(** ** On the wire *)
Lemma yield1_ok z l : yield1 z = Ok l -> l = [z].
Proof. unfold yield1. destruct (_ && _); [congruence|discriminate]. Qed.
Lemma rapp_ok a b l : a +++ b = Ok l -> exists x y, a = Ok x /\ b = Ok y /\ l = (x ++ y)%list.
Proof. unfold rapp, rbind. destruct a as [x|]; [|discriminate]. destruct b as [y|]; [|discriminate]. intro H. exists x, y. split; [reflexivity|split; [reflexivity|congruence]]. Qed.
Lemma head_and_rest z r l : yield1 z +++ r = Ok l -> exists rest, l = z :: rest /\ r = Ok rest.
Proof. intro H. apply rapp_ok in H. destruct H as [x [y [A [B C]]]]. apply yield1_ok in A. rewrite A in C. exists y. split; [exact C|exact B]. Qed.
Lemma flags_small b b' : 0 <= flag6 b (flag7 b' 0) /\ flag6 b (flag7 b' 0) mod 64 = 0.
Proof. destruct b, b'; vm_compute; split; congruence. Qed.
Lemma low_bits f o : f mod 64 = 0 -> (f + op_code o) mod 64 = op_code o.
Proof.
  intro H. rewrite Z.add_mod by lia. rewrite H, Z.add_0_l, Z.mod_mod by lia.
  apply Z.mod_small. apply code_bits.
Qed.
Lemma on_the_wire k o a bs : mk_action k o = Ok a -> action_ser a = Ok bs ->
  exists b rest, bs = (b :: rest)%list /\ b mod 64 = op_code o /\ op_ser o = Ok rest.
Proof.
  intros Hm Hs. unfold mk_action, validated in Hm.
  match type of Hm with (if ?c then _ else _) = _ => destruct c eqn:Ec; [|discriminate Hm] end.
  injection Hm as <-. unfold action_ser in Hs. cbn [a_kind a_op] in Hs.
  destruct k; try discriminate Hs;
    apply head_and_rest in Hs; destruct Hs as [rest [-> Hr]]; eexists; exists rest;
    (split; [reflexivity|split; [|exact Hr]]); apply low_bits; try apply flags_small.
  - destruct o; apply Bool.orb_true_iff in Ec; destruct Ec as [E|E]; apply Z.eqb_eq in E; subst; reflexivity.
  - destruct respond; reflexivity.
Qed.
