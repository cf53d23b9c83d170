(** Lemmas for C103: the two causes without a text. *)
From Coq Require Import String.
From Verif Require Import LBits LTypes LCt LParsed.
From Verif Require Import Bits MBase MCrc MCt MPhy MSp MFs MOperands MAlp MSerial MReport MCause MWhere SWhere LTotal LTags LWhere LWhere2 LWhere3 LWhere4 LWhere5.
From Coq Require Import Lia.
Close Scope string_scope.
Open Scope list_scope.
Open Scope Z_scope.

Lemma pos_uint n s v s' : wuint n s = Done v s' -> pos s' = (pos s + n)%nat.
Proof. intro E. apply uint_field in E. tauto. Qed.
Lemma pos_enum {A} n c (of : Z -> res A) s v s' : wenum n c of s = Done v s' -> pos s' = (pos s + n)%nat.
Proof.
  unfold wenum, wbind. destruct (wuint n s) as [x s1|] eqn:X; [|discriminate]. destruct (of x); [|discriminate]. intros [= _ <-]. apply (pos_uint _ _ _ _ X).
Qed.
Lemma pos_cid s c s' : cid_w s = Done c s' -> pos s' = (pos s + 24)%nat.
Proof.
  unfold cid_w, ch_w. intro E. apply bind_done in E as (h & s1 & E1 & E). apply bind_done in E as (i & s2 & E2 & E). apply lift_done in E as [_ ->].
  apply bind_done in E1 as (x & t1 & X1 & E1). apply bind_done in E1 as (y & t2 & X2 & E1). apply bind_done in E1 as (z & t3 & X3 & E1).
  apply bind_done in E1 as (u & t4 & X4 & E1). injection E1 as _ <-.
  apply pos_uint in E2, X1. apply pos_enum in X2, X3, X4. lia.
Qed.
Lemma int_field s rx s' : wread (read_int 8) s = Done rx s' -> exists v, pos s' = (pos s + 8)%nat /\ after s s' /\ field s (pos s) (pos s + 8) v
  /\ 0 <= v < 256 /\ rx = (if v <? 128 then v else v - 256).
Proof.
  intro E. assert (exists v, wuint 8 s = Done v s' /\ rx = (if v <? 128 then v else v - 256)) as (v & U & R).
  { unfold wread, read_int, bindp, ret in E. unfold wuint, wread. destruct (read_uint 8 s) as [[v s1]|]; [|discriminate]. injection E as <- <-. exists v. split; reflexivity. }
  exists v. pose proof (done_post _ _ _ _ _ _ (same_uint 8) (post_uint 8) U) as B. cbv beta in B. change (2 ^ Z.of_nat 8) with 256 in B. apply uint_field in U. tauto.
Qed.
Lemma failed_after {A} (w : W A) s e t p : local w -> w s = Failed e t p -> asks_for_more e \/ (pos s <= p)%nat.
Proof. intros L E. specialize (L s). rewrite E in L. destruct L as [L|(u & r & _ & P & _)]; [left; exact L | right; lia]. Qed.
Definition low_level (s : stream) (p : nat) : Prop := exists v, field s (pos s + 24) (pos s + 32) v /\ 128 <= v /\ (pos s + 32 <= p)%nat.
(** nothing but [ValueError] *)
Definition mild {A} (w : W A) : Prop := forall s e p, w s = Failed e None p -> told e \/ e = ValueError.
Lemma mild_sure {A} (w : W A) : sure w -> mild w. Proof. intros H s e p E. left. apply (H s e p E). Qed.
Lemma mild_val {A} b (x : A) : mild (wlift (validated b x)).
Proof. intros s e p E. unfold wlift, validated in E. destruct b; [discriminate|]. injection E as <- _. right. reflexivity. Qed.
Lemma mild_any {A B} (w : W A) (f : A -> W B) : sure w -> (forall a, mild (f a)) -> mild (wbind w f).
Proof.
  intros K F s e q E. apply bind_failed in E as [E|(a & s' & _ & E)]; [left; apply (K s e q E) | apply (F a s' e q E)].
Qed.
Lemma status_silent s e p : status_w s = Failed e None p -> told e \/ (e = ValueError /\ low_level s p).
Proof.
  unfold status_w. intro E. unfold wbind at 1 in E. destruct (cid_w s) as [cid s1|e' t' p'] eqn:X1; [|injection E as -> -> ->; left; apply (cid_sure _ _ _ X1)].
  pose proof (done_after _ _ _ _ cid_local X1) as A1. apply pos_cid in X1. unfold wbind at 1 in E.
  destruct (wread (read_int 8) s1) as [rx s2|e' t' p'] eqn:X2; [|injection E as -> -> ->; left; apply (sure_int _ _ _ _ X2)].
  apply int_field in X2 as (v & P2 & A2 & F & V & R). destruct (v <? 128) eqn:L.
  - left. subst rx. revert E. match goal with |- ?w s2 = _ -> _ => assert (sure w) as K; [|apply K] end.
    apply Z.ltb_lt in L. sures. apply sure_val. change (2 ^ Z.of_nat 8) with 256 in *. unfold is_BYTE, in_range. lia.
  - apply Z.ltb_ge in L. clear R.
    match type of E with ?w s2 = _ => assert (mild w) as K; [|assert (local w) as Lc by locs; pose proof (failed_after _ _ _ _ _ Lc E) as PA; apply K in E] end.
    { repeat (apply mild_any; [solve [sures] | intro]). apply mild_val. }
    destruct E as [E| ->]; [left; exact E|]. right. split; [reflexivity|]. exists v. split; [|split; [exact L|]].
    + apply (field_after s s1); [exact A1|]. rewrite <- X1. replace (pos s + 32)%nat with (pos s1 + 8)%nat by lia. exact F.
    + destruct PA as [[PA|PA]|PA]; [discriminate | discriminate | lia].
Qed.
Definition causes (s : stream) (e : exn) (p : nat) : Prop := told e \/ (e = ValueError /\ unsaid s p).
Lemma unsaid_after s s' p : starts s s' -> unsaid s' p -> unsaid s p.
Proof.
  intros A U. destruct U as [t v H F1 F2 F3 V P|t H F P].
  - apply (un_level s p t v); try assumption. apply (starts_trans _ _ _ A H).
  - apply (un_status s p t); try assumption. apply (starts_trans _ _ _ A H).
Qed.
Lemma status_action_silent s b7 b6 s3 e p : head s b7 b6 34 s3 -> status_action_w b7 b6 s3 = Failed e None p -> causes s e p.
Proof.
  intros (P & A & F7 & F6 & F & FB) E. unfold status_action_w in E. destruct b7; [discriminate|]. destruct b6; [|discriminate].
  apply bind_failed in E as [E|(i & s4 & X1 & E)]; [left; apply (sure_uint _ _ _ _ E)|]. apply bind_failed in E as [E|(len & s5 & X2 & E)]; [left; apply (sure_uint _ _ _ _ E)|].
  apply uint_field in X1 as (P4 & A4 & F4). apply uint_field in X2 as (P5 & A5 & F5). pose proof (after_trans _ _ _ A (after_trans _ _ _ A4 A5)) as A35.
  destruct (i =? 0); [discriminate|]. destruct (i =? 215) eqn:I1.
  - apply Z.eqb_eq in I1. subst i. apply bind_failed in E as [E|(st & s6 & X3 & E)].
    + destruct (0 <? len); [|discriminate]. apply bind_failed in E as [E|(a & s7 & _ & E)]; [|discriminate].
      apply status_silent in E as [E|(-> & v & L1 & L2 & L3)]; [left; exact E|]. right. split; [reflexivity|].
      apply (un_level s p s v); [apply st_first | exact FB | | | exact L2 | lia].
      * apply (field_after s s3 _ _ _ A). rewrite P in F4. replace (pos s + 16)%nat with (pos s + 8 + 8)%nat by lia. exact F4.
      * apply (field_after s s5 _ _ _ A35). replace (pos s + 48)%nat with (pos s5 + 24)%nat by lia. replace (pos s + 56)%nat with (pos s5 + 32)%nat by lia. exact L1.
    + left. revert E. match goal with |- ?w s6 = _ -> _ => assert (sure w) as K; [|apply K] end.
      apply sure_any; [apply sure_val; reflexivity|]. intro o. apply sure_any; [apply sure_val; reflexivity | intro; apply sure_ret].
  - destruct (i =? 1); [|discriminate]. left. revert E. match goal with |- ?w s5 = _ -> _ => assert (sure w) as K; [|apply K] end.
    apply sure_any; [apply sure_val; reflexivity|]. intro o. apply sure_any; [apply sure_val; reflexivity | intro; apply sure_ret].
Qed.
Lemma regular_sure {A} b7 b6 (w : W A) op : sure w -> sure (regular_w b7 b6 w op).
Proof. intro H. unfold regular_w. apply sure_any; [exact H|]. intro x. apply sure_any; [apply sure_val; reflexivity | intro; apply sure_ret]. Qed.
Lemma forward_sure b7 b6 : sure (forward_action_w b7 b6).
Proof.
  unfold forward_action_w. destruct b7; [apply sure_said|]. sure1; [sures|]. sure1; [sures|]. apply sure_any; [apply sure_val; reflexivity | intro; apply sure_ret].
Qed.
Lemma indirect_sure b7 b6 : sure (indirect_forward_action_w b7 b6).
Proof.
  unfold indirect_forward_action_w. apply sure_num; intros v Hv. change (2 ^ Z.of_nat 8) with 256 in Hv. sure1; [sures|].
  apply sure_any; [apply sure_val; unfold in_range; lia|]. intro o. apply sure_any; [apply sure_val; reflexivity | intro; apply sure_ret].
Qed.
Lemma tag_request_sure b7 b6 : sure (tag_request_action_w b7 b6).
Proof.
  unfold tag_request_action_w. destruct b6; [apply sure_said|]. apply sure_num; intros v Hv. change (2 ^ Z.of_nat 8) with 256 in Hv.
  apply sure_any; [apply sure_val; unfold is_BYTE, in_range; lia|]. intro o. apply sure_any; [apply sure_val; reflexivity | intro; apply sure_ret].
Qed.
Lemma tag_response_sure b7 b6 : sure (tag_response_action_w b7 b6).
Proof.
  unfold tag_response_action_w. apply sure_num; intros v Hv. change (2 ^ Z.of_nat 8) with 256 in Hv.
  apply sure_any; [apply sure_val; unfold is_BYTE, in_range; lia|]. intro o. apply sure_any; [apply sure_val; reflexivity | intro; apply sure_ret].
Qed.
#[export] Hint Resolve regular_sure forward_sure indirect_sure tag_request_sure tag_response_sure : sure.
Lemma action_silent s e p : action_w s = Failed e None p -> causes s e p.
Proof.
  unfold action_w. intro E. apply bind_failed in E as [E|(b7 & s1 & X1 & E)]; [left; apply (sure_bool _ _ _ E)|].
  apply bind_failed in E as [E|(b6 & s2 & X2 & E)]; [left; apply (sure_bool _ _ _ E)|]. apply bind_failed in E as [E|(op & s3 & X3 & E)]; [left; apply (sure_uint _ _ _ _ E)|].
  pose proof (head_read s b7 s1 b6 s2 op s3 X1 X2 X3) as H.
  destruct (op =? 34) eqn:O34.
  - apply Z.eqb_eq in O34. subst op. apply (status_action_silent s b7 b6 s3 e p H E).
  - left. revert E. match goal with |- ?w s3 = _ -> _ => assert (sure w) as K by sures; apply K end.
Qed.
Ltac some := exfalso; match goal with E : ?w ?s3 = Done None _ |- _ =>
    unfold regular_w, tag_response_action_w, forward_action_w, indirect_forward_action_w, tag_request_action_w in E;
    repeat match type of E with (if ?x then _ else _) _ = _ => destruct x; [discriminate E|] | wbind _ _ _ = _ => apply bind_done in E as (? & ? & _ & E) end; discriminate E end.
Lemma action_none s s' : action_w s = Done None s' -> field s (pos s) (pos s + 8) 34 /\ (pos s + 8 <= pos s')%nat.
Proof.
  unfold action_w. intro E. apply bind_done in E as (b7 & s1 & X1 & E). apply bind_done in E as (b6 & s2 & X2 & E). apply bind_done in E as (op & s3 & X3 & E).
  pose proof (head_read s b7 s1 b6 s2 op s3 X1 X2 X3) as (P & A & F7 & F6 & F & FB).
  assert (R : forall (w : W (option Action)), w s3 = Done None s' -> (forall t t', w t <> Done None t') -> False) by (intros w X Y; apply (Y _ _ X)).
  destruct (op =? 1); [some|]. destruct (op =? 4); [some|]. destruct (op =? 9); [some|]. destruct (op =? 17); [some|]. destruct (op =? 32); [some|]. destruct (op =? 33); [some|].
  destruct (op =? 34) eqn:O34.
  - apply Z.eqb_eq in O34. subst op. unfold status_action_w in E. destruct b7; [discriminate|]. destruct b6.
    + exfalso. apply bind_done in E as (i & s4 & _ & E). apply bind_done in E as (len & s5 & _ & E).
      destruct (i =? 0); [discriminate|]. destruct (i =? 215); [|destruct (i =? 1); [|discriminate]];
        repeat match type of E with wbind _ _ _ = _ => apply bind_done in E as (? & ? & _ & E) end; discriminate E.
    + injection E as <-. split; [exact FB | lia].
  - destruct (op =? 35); [some|]. destruct (op =? 50); [some|]. destruct (op =? 51); [some|]. destruct (op =? 52); [some|]. discriminate.
Qed.
Definition aligned_exn (e : exn) : Prop := e = ByteAlignError \/ e = OutOfFuel.
Lemma bytepos_failed s e t p : wread bytepos s = Failed e t p -> e = ByteAlignError.
Proof. unfold wread, bytepos. destruct (_ =? 0); [discriminate|]. intros [= <- _ _]. reflexivity. Qed.
Lemma actions_silent fuel : forall a b s e p, actions_w fuel a b s = Failed e None p -> aligned_exn e \/ causes s e p.
Proof.
  induction fuel as [|f IH]; intros a b s e p E; cbn [actions_w] in E; [injection E as <- _; left; right; reflexivity|].
  destruct (a <? b); [|discriminate]. apply bind_failed in E as [E|(x & s1 & X1 & E)]; [left; left; apply (bytepos_failed _ _ _ _ E)|].
  apply bytepos_done in X1. subst s1. apply bind_failed in E as [E|(y & s2 & X2 & E)]; [right; apply (action_silent _ _ _ E)|].
  apply bind_failed in E as [E|(z & s3 & X3 & E)]; [left; left; apply (bytepos_failed _ _ _ _ E)|]. apply bytepos_done in X3. subst s3.
  apply bind_failed in E as [E|(l & s4 & X4 & E)]; [|discriminate].
  destruct (IH _ _ _ _ _ E) as [K|[K|(K & U)]]; [left; exact K | right; left; exact K | right; right; split; [exact K|]].
  apply (unsaid_after s s2); [apply (action_starts _ _ _ _ (st_first s) X2) | exact U].
Qed.
Lemma actions_none fuel : forall a b s l s', actions_w fuel a b s = Done l s' -> In None l -> unsaid s (pos s').
Proof.
  induction fuel as [|f IH]; intros a b s l s' E I; cbn [actions_w] in E; [discriminate|].
  destruct (a <? b); [|injection E as <- _; destruct I].
  apply bind_done in E as (x & s1 & X1 & E). apply bytepos_done in X1. subst s1. apply bind_done in E as (y & s2 & X2 & E).
  apply bind_done in E as (z & s3 & X3 & E). apply bytepos_done in X3. subst s3. apply bind_done in E as (l' & s4 & X4 & E). injection E as <- <-.
  destruct I as [->|I].
  - apply action_none in X2 as (F & P). pose proof (done_after _ _ _ _ (actions_local f _ b) X4) as (u & _ & PU). apply (un_status s _ s); [apply st_first | exact F | lia].
  - apply (unsaid_after s s2); [apply (action_starts _ _ _ _ (st_first s) X2) | apply (IH _ _ _ _ _ X4 I)].
Qed.
Lemma actions_parsed fuel : forall a b s l s', actions_w fuel a b s = Done l s' -> Forall oact_parsed l.
Proof.
  induction fuel as [|f IH]; intros a b s l s' E; cbn [actions_w] in E; [discriminate|].
  destruct (a <? b); [|injection E as <- _; constructor].
  apply bind_done in E as (x & s1 & X1 & E). apply bind_done in E as (y & s2 & X2 & E).
  apply bind_done in E as (z & s3 & X3 & E). apply bind_done in E as (l' & s4 & X4 & E). injection E as <- <-.
  constructor; [apply (done_post _ _ _ _ _ _ action_same post_action X2) | apply (IH _ _ _ _ _ X4)].
Qed.
Lemma add_init_exn c a e : act_parsed a -> add_init c a = Err e -> e = ParseError.
Proof.
  intros (_ & K) E. unfold add_init in E. destruct a as [k o]. cbn [a_kind a_op] in *.
  destruct k as [g r|r|v r|x|r|x y]; try discriminate.
  - destruct x as [|[| |]|]; try discriminate. destruct (c_status c); [injection E as <-; reflexivity | discriminate].
  - destruct (c_tag c); [injection E as <-; reflexivity|]. destruct o; try contradiction; discriminate.
  - destruct (c_tag c); [injection E as <-; reflexivity|]. destruct o; try contradiction; discriminate.
Qed.
Lemma loop_silent : forall l c bad, Forall oact_parsed l -> command_text l c = None ->
  match command_loop l c bad with Ok (_, b) => b = true -> bad = true \/ In None l | Err _ => False end.
Proof.
  induction l as [|[a|] l IH]; intros c bad F T; cbn [command_loop command_text] in *; [tauto | |].
  - inversion_clear F as [|? ? Fa Fl]. cbn [oact_parsed] in Fa. destruct (add_init c a) as [c'|e] eqn:A; cbn [rbind].
    + specialize (IH c' bad Fl T). destruct (command_loop l c' bad) as [[c2 b2]|e]; [|exact IH]. intro H. destruct (IH H); [tauto | right; right; assumption].
    + pose proof (add_init_exn c a e Fa A) as ->. unfold add_init in A. destruct (a_kind a) as [| | |[|[| |]|]| |]; discriminate.
  - inversion_clear F as [|? ? Fa Fl]. specialize (IH c true Fl T). destruct (command_loop l c true) as [[c2 b2]|e]; [|exact IH]. intros _. right. left. reflexivity.
Qed.
Lemma alp_silent n s e p : alp_where n s = Failed e None p -> aligned_exn e \/ causes s e p.
Proof.
  unfold alp_where. intro E. apply bind_failed in E as [E|(l & s' & X & E)].
  - destruct (n =? 0); [discriminate | apply (actions_silent _ _ _ _ _ _ E)].
  - assert (F : Forall oact_parsed l) by (destruct (n =? 0); [injection X as <- _; constructor | apply (actions_parsed _ _ _ _ _ _ X)]).
    destruct (mk_command 0 l false None true) as [c|e'] eqn:M; [discriminate|]. injection E as -> T <-.
    pose proof (loop_silent l _ false F T) as K. unfold mk_command in M. destruct (command_loop l _ false) as [[c bad]|]; [|contradiction]. cbn [rbind] in M.
    unfold validated in M. destruct bad; [|discriminate]. cbn [negb] in M. injection M as <-. right. right. split; [reflexivity|].
    destruct (K eq_refl) as [K'|K']; [discriminate|]. destruct (n =? 0); [injection X as <- _; destruct K' | apply (actions_none _ _ _ _ _ _ X K')].
Qed.
