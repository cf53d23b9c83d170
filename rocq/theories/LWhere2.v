(** Lemmas for C103: the position is where the decision falls. *)
From Coq Require Import String.
From Verif Require Import Bits MBase MCrc MCt MPhy MSp MFs MOperands MAlp MSerial MReport MCause MWhere SWhere LTotal LTags LWhere.
From Coq Require Import Lia.
Close Scope string_scope.
Open Scope list_scope.
Open Scope Z_scope.

Definition alp_fuel (fuel : nat) (n : Z) : W Command :=
  wbind (if n =? 0 then wret [] else actions_w fuel 0 n)
    (fun l => match mk_command 0 l false None true with
     | Ok c => wret c
     | Err e => wraise e (command_text l (mkCommand [] None false None true false None))
     end).
Lemma alp_fuel_local fuel n : local (alp_fuel fuel n).
Proof.
  unfold alp_fuel. apply local_bind.
  - destruct (n =? 0); [apply local_ret | apply actions_local].
  - intro l. destruct (mk_command 0 l false None true); [apply local_ret | apply local_raise].
Qed.
Definition no_fuel {A} (o : Out A) : Prop := exists t p, o = Failed OutOfFuel t p.
Lemma actions_more f : forall f' a b s, (f <= f')%nat -> no_fuel (actions_w f a b s) \/ actions_w f' a b s = actions_w f a b s.
Proof.
  induction f as [|f IH]; intros f' a b s L; [left; eexists _, _; reflexivity|].
  destruct f' as [|f']; [lia|]. cbn [actions_w]. destruct (a <? b); [|right; reflexivity].
  unfold wbind. destruct (wread bytepos s) as [x s1|]; [|right; reflexivity]. destruct (action_w s1) as [y s2|]; [|right; reflexivity].
  destruct (wread bytepos s2) as [z s3|]; [|right; reflexivity].
  destruct (IH f' (a + (z - x)) b s3 ltac:(lia)) as [(t & p & E)|E].
  - left. rewrite E. eexists _, _. reflexivity.
  - right. rewrite E. reflexivity.
Qed.
Lemma alp_fueled n s fuel : (pos s mod 8 = 0)%nat -> (S (List.length (bits s)) <= fuel)%nat -> alp_where n s = alp_fuel fuel n s.
Proof.
  intros M L. pose proof (alp_total n s M) as T. pose proof (alp_same n s) as E. unfold alp_where in E |- *. unfold alp_fuel. destruct (n =? 0); [reflexivity|].
  unfold wbind in E |- *. destruct (actions_more (S (List.length (bits s))) fuel 0 n s L) as [(t & p & X)|X].
  - rewrite X in E. cbn [erase] in E. rewrite <- E in T. destruct T as [T _]. discriminate.
  - rewrite X. reflexivity.
Qed.
Lemma alp_err n s e t p : alp_where n s = Failed e t p -> alp_parse n s = Err e.
Proof. intro E. rewrite <- (alp_same n s), E. reflexivity. Qed.
Lemma refused n s e t p : (pos s mod 8 = 0)%nat -> alp_where n s = Failed e t p -> ~ asks_for_more e ->
  refused_at n s e p /\ forall s', agree_to p s s' -> alp_where n s' = Failed e t p.
Proof.
  intros M E N. pose proof (alp_fuel_local (S (List.length (bits s))) n s) as L. rewrite <- alp_fueled in L by (try lia; exact M).
  rewrite E in L. destruct L as [L|(u & r & B & P & D & Sh)]; [contradiction|].
  assert (big : forall F x, (S (List.length (bits s)) <= F)%nat -> alp_fuel F n (St (pos s) (u ++ x)) = Failed e t p).
  { intros F x HF. pose proof (alp_fuel_local F n s) as LF. rewrite <- alp_fueled in LF by (try lia; exact M). rewrite E in LF.
    destruct LF as [LF|(u' & r' & B' & P' & D' & _)]; [contradiction|].
    assert (u = u') as <-. { apply (f_equal (firstn (List.length u))) in B'. rewrite B in B'. assert (List.length u = List.length u') as U by lia.
      rewrite U in B' at 2. rewrite !firstn_app, !firstn_all, !Nat.sub_diag, !firstn_O, !app_nil_r in B'. exact B'. }
    apply D'. }
  assert (ag : forall s', agree_to p s s' -> alp_where n s' = Failed e t p).
  { intros s' (A1 & A2 & A3 & A4). unfold cut_at in A2. injection A2 as _ A2. rewrite B in A2. replace (p - pos s)%nat with (List.length u) in A2 by lia.
    rewrite firstn_app, firstn_all, Nat.sub_diag, firstn_O, app_nil_r in A2. replace (p - pos s')%nat with (List.length u) in A2 by lia.
    assert (X : s' = St (pos s) (u ++ skipn (List.length u) (bits s'))). { destruct s' as [q b]. cbn [pos bits] in *. subst q. f_equal. rewrite A2 at 1. symmetry. apply firstn_skipn. }
    rewrite (alp_fueled n s' (S (List.length (bits s)) + S (List.length (bits s')))) by (try lia; congruence).
    rewrite X at 2. apply big. lia. }
  split; [|exact ag]. split; [|split].
  - rewrite B, app_length. lia.
  - intros s' A. apply (alp_err n s' e t p), ag, A.
  - intros k K. unfold cut_at. rewrite B, firstn_app. replace (k - pos s - List.length u)%nat with 0%nat by lia. rewrite firstn_O, app_nil_r.
    destruct (Sh (k - pos s)%nat ltac:(lia)) as (e' & t' & q & X & Y). exists e'. split; [|exact Y]. apply (alp_err n _ e' t' q).
    rewrite (alp_fueled n _ (Datatypes.S (List.length (bits s)))); [exact X | exact M|]. cbn [bits]. rewrite firstn_length. rewrite B, app_length. lia.
Qed.
(** the position is determined by the parser without positions *)
Lemma refused_unique n s e p e' p' : ~ asks_for_more e -> ~ asks_for_more e' -> refused_at n s e p -> refused_at n s e' p' -> e = e' /\ p = p'.
Proof.
  intros N N' (R & A & K) (R' & A' & K').
  assert (X : alp_parse n s = Err e). { apply A. unfold agree_to. split; [reflexivity|]. split; [reflexivity|]. lia. }
  assert (X' : alp_parse n s = Err e'). { apply A'. unfold agree_to. split; [reflexivity|]. split; [reflexivity|]. lia. }
  split; [congruence|].
  assert (cut : forall k, agree_to k s (cut_at k s) \/ (pos s + List.length (bits s) < k)%nat \/ (k < pos s)%nat).
  { intro k. destruct (Nat.lt_ge_cases (pos s + List.length (bits s)) k); [tauto|]. destruct (Nat.lt_ge_cases k (pos s)); [tauto|]. left.
    unfold agree_to, cut_at. cbn [pos bits]. rewrite firstn_firstn, Nat.min_id, firstn_length. split; [reflexivity|]. split; [reflexivity|]. lia. }
  destruct (Nat.lt_trichotomy p p') as [L|[L|L]]; [|exact L|].
  - destruct (K' p ltac:(lia)) as (x & E & M). destruct (cut p) as [C|C]; [|lia]. rewrite (A _ C) in E. congruence.
  - destruct (K p' ltac:(lia)) as (x & E & M). destruct (cut p') as [C|C]; [|lia]. rewrite (A' _ C) in E. congruence.
Qed.
Lemma alp_agree n s : alp_parse n s = match alp_where n s with Done c s' => Ok (c, s') | Failed e _ _ => Err e end.
Proof. rewrite <- (alp_same n s). destruct (alp_where n s); reflexivity. Qed.
