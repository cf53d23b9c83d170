(** Lemmas for C16: actions that are refused although their opcode is known *)
From Coq Require Import ZifyBool.
From Verif Require Import Bits LBits LParse LAction SCommand.
Open Scope list_scope.
Open Scope Z_scope.

Lemma refused_known b7 b6 v l e :
  (v = 34 /\ rejects (parse_status_action b7 b6) l e) \/ (v = 50 /\ rejects (parse_forward_action b7 b6) l e)
  \/ (v = 52 /\ rejects (parse_tag_request_action b7 b6) l e) ->
  rejects parse_action ([b7; b6] ++ Zbits 6 v ++ l) e.
Proof.
  intros H. unfold parse_action. cbn [app].
  eapply (rejects_bind _ _ [_]); [apply accepts_bool|].
  eapply (rejects_bind _ _ [_]); [apply accepts_bool|].
  eapply rejects_bind; [apply accepts_uint; pow2; lia|]. cbv beta.
  destruct H as [[-> H]|[[-> H]|[-> H]]]; exact H.
Qed.
Lemma refused_bits b7 b6 :
  rejects parse_action ([true; b6] ++ Zbits 6 34) ParseError
  /\ rejects parse_action ([true; b6] ++ Zbits 6 50) ParseError
  /\ rejects parse_action ([b7; true] ++ Zbits 6 52) ParseError.
Proof.
  refine (conj _ (conj _ _)); match goal with |- rejects _ (?a ++ ?b) _ => rewrite <- (app_nil_r b) end;
    apply refused_known; [left | right; left | right; right]; (split; [reflexivity|]); apply rejects_raise.
Qed.
Lemma refused_interface b6 i len : 0 <= i <= 255 -> is_byte len ->
  (i <> 1 -> i <> 215 ->
     rejects parse_action ([false; true] ++ Zbits 6 34 ++ Zbits 8 i ++ Zbits 8 len) (if i =? 0 then AttributeError else ParseError))
  /\ (i <> 1 -> i <> 2 -> i <> 3 -> i <> 215 ->
     rejects parse_action ([false; b6] ++ Zbits 6 50 ++ Zbits 8 i) (if i =? 0 then AssertNoMsg else ValueError)).
Proof.
  intros Hi Hl. unfold is_byte in Hl. split.
  - intros N1 N2. apply refused_known. left. split; [reflexivity|]. unfold parse_status_action.
    eapply rejects_bind; [apply accepts_uint; pow2; lia|]. rewrite <- (app_nil_r (Zbits 8 len)).
    eapply rejects_bind; [apply accepts_uint; pow2; lia|]. cbv beta.
    destruct (Z.eqb_spec i 0); [apply rejects_raise|]. replace (i =? 215) with false by lia. replace (i =? 1) with false by lia. apply rejects_raise.
  - intros N1 N2 N3 N4. apply refused_known. right. left. split; [reflexivity|]. unfold parse_forward_action.
    rewrite <- (app_nil_r (Zbits 8 i)). eapply rejects_bind; [apply accepts_uint; pow2; lia|].
    unfold iftype_of. destruct (Z.eqb_spec i 0).
    + intros p rest. reflexivity.
    + replace (i =? 1) with false by lia. replace (i =? 2) with false by lia. replace (i =? 3) with false by lia. replace (i =? 215) with false by lia.
      apply rejects_bind_first. apply rejects_lift. reflexivity.
Qed.
