(** Lemmas for C103: what the text says about an action and a command. *)
From Coq Require Import String.
From Verif Require Import Bits MBase MCrc MCt MPhy MSp MFs MOperands MAlp MSerial MReport MCause MWhere SWhere LTotal LTags LWhere LWhere2 LWhere3.
From Coq Require Import Lia.
Close Scope string_scope.
Open Scope list_scope.
Open Scope Z_scope.

(** the values in an action *)
Lemma names_tells {A} (w : W A) (l : list (Class * nat)) s k s' n e t p : names w l -> after s s' -> pos s' = (pos s + k)%nat -> operation s n ->
  forallb (fun x => existsb (fun y => (fst y =? n) && Nat.eqb (snd y) (k + snd x)) (class_places (fst x))) l = true ->
  w s' = Failed e (Some t) p -> tells s p t.
Proof.
  intros H Af P O L E. destruct (H s' e t p E) as (c & j & v & I & -> & B & F & V & ->). rewrite forallb_forall in L. specialize (L _ I). cbn [fst snd] in L.
  apply existsb_exists in L as ((m & q) & M & Y). cbn [fst snd] in Y. apply andb_true_iff in Y as [Y1 Y2]. apply Z.eqb_eq in Y1. apply Nat.eqb_eq in Y2. subst m q.
  exists s, (k + j)%nat. split; [apply st_first|]. split; [lia|]. apply (te_class s c n); [exact O | exact M | | exact V].
  apply (field_after s s' _ _ _ Af). rewrite P in F. replace (pos s + (k + j))%nat with (pos s + k + j)%nat by lia. exact F.
Qed.
Lemma mute_not {A} (w : W A) s e t p (Q : Prop) : names w [] -> w s = Failed e (Some t) p -> Q.
Proof. intros H E. destruct (H s e t p E) as (? & ? & ? & [] & _). Qed.
Lemma tells_first s p k t : p = (pos s + k)%nat -> tells_at s k t -> tells s p t.
Proof. intros P T. exists s, k. split; [apply st_first | split; assumption]. Qed.
Lemma bind_failed {A B} (w : W A) (f : A -> W B) s e t p : wbind w f s = Failed e t p ->
  w s = Failed e t p \/ exists a s', w s = Done a s' /\ f a s' = Failed e t p.
Proof. unfold wbind. destruct (w s) as [a s'|e' t' p']; intro E; [right; exists a, s'; split; [reflexivity | exact E] | left; injection E as -> -> ->; reflexivity]. Qed.
Lemma status_says s b7 b6 s3 e t p : head s b7 b6 34 s3 -> status_action_w b7 b6 s3 = Failed e (Some t) p -> tells s p t.
Proof.
  intros (P & A & F7 & F6 & F & FB) E. unfold status_action_w in E. destruct b7.
  - injection E as <- <- <-. apply (tells_first s _ 8); [exact P|]. apply te_extension; assumption.
  - destruct b6; [|discriminate]. apply bind_failed in E as [E|(i & s4 & X1 & E)]; [apply (mute_not _ _ _ _ _ _ (names_uint 8) E)|].
    apply bind_failed in E as [E|(len & s5 & X2 & E)]; [apply (mute_not _ _ _ _ _ _ (names_uint 8) E)|].
    apply uint_field in X1 as (P4 & A4 & F4). apply uint_field in X2 as (P5 & A5 & F5). pose proof (after_trans _ _ _ A (after_trans _ _ _ A4 A5)) as A35.
    apply (field_after s s3 _ _ _ A) in F4. rewrite P in F4. replace (pos s + 8 + 8)%nat with (pos s + 16)%nat in F4 by lia. change (128 * b2z false + 64 * b2z true + 34) with (64 + 34) in FB.
    destruct (i =? 0) eqn:I0; [|destruct (i =? 215) eqn:I1; [|destruct (i =? 1) eqn:I2]].
    + apply Z.eqb_eq in I0. subst i. injection E as <- <- <-. apply (tells_first s _ 24); [lia|]. apply te_host; assumption.
    + refine (names_tells _ [(KChannelBand, 4%nat); (KChannelClass, 6%nat); (KChannelCoding, 8%nat); (KIdType, 84%nat); (KNlsMethod, 88%nat)] s 24 s5 34 e t p _ A35 _ F eq_refl E); [|lia].
      apply names_end; [locs | destruct (0 <? len); [apply names_end; [locs | apply status_names | mute]|eapply names_incl; [apply names_ret | intros ? []]] | mute].
    + refine (mute_not _ _ _ _ _ _ _ E); mute.
    + injection E as <- <- <-. apply (tells_first s _ 24); [lia|]. apply te_interface; [exact FB | exact F4|].
      intros [J|[J|[J|[]]]]; subst i; discriminate.
Qed.
Lemma forward_says s b7 b6 s3 e t p : head s b7 b6 50 s3 -> forward_action_w b7 b6 s3 = Failed e (Some t) p -> tells s p t.
Proof.
  intros (P & A & F7 & F6 & F & FB) E. unfold forward_action_w in E. destruct b7.
  - injection E as <- <- <-. apply (tells_first s _ 8); [exact P|]. apply te_bit7; assumption.
  - refine (names_tells _ ([(KInterfaceType, 8%nat)] ++ shift 8 [(KRetryMode, 5%nat); (KResponseMode, 8%nat); (KIdType, 20%nat); (KNlsMethod, 24%nat)]) s 8 s3 50 e t p _ A P F eq_refl E).
    apply names_bind; [locs | auto with takes | auto with names |]. intro i. apply names_end; [locs | | mute].
    destruct i; first [apply names_end; [locs | apply conf_names | mute] | apply (names_incl _ []); [solve [mute] | intros ? []]].
Qed.
Lemma tag_request_says s b7 b6 s3 e t p : head s b7 b6 52 s3 -> tag_request_action_w b7 b6 s3 = Failed e (Some t) p -> tells s p t.
Proof.
  intros (P & A & F7 & F6 & F & FB) E. unfold tag_request_action_w in E. destruct b6.
  - injection E as <- <- <-. apply (tells_first s _ 8); [exact P|]. apply te_bit6; assumption.
  - refine (mute_not _ _ _ _ _ _ _ E); mute.
Qed.
Lemma indirect_says s b7 b6 s3 e t p : head s b7 b6 51 s3 -> indirect_forward_action_w b7 b6 s3 = Failed e (Some t) p -> tells s p t.
Proof.
  intros (P & A & F7 & F6 & F & FB) E. unfold indirect_forward_action_w in E.
  refine (names_tells _ ([] ++ shift 8 [(KIdType, 4%nat); (KNlsMethod, 8%nat)]) s 8 s3 51 e t p _ A P F eq_refl E).
  apply names_bind; [locs | auto with takes | auto with names |]. intro i. apply names_end; [locs | | mute].
  destruct b7; [apply names_end; [locs | apply addr_names | mute] | apply (names_incl _ []); [solve [mute] | intros ? []]].
Qed.
Lemma regular_says {A} (w : W A) op l s b7 b6 n s3 e t p : head s b7 b6 n s3 -> local w -> names w l ->
  forallb (fun x => existsb (fun y => (fst y =? n) && Nat.eqb (snd y) (8 + snd x)) (class_places (fst x))) l = true ->
  regular_w b7 b6 w op s3 = Failed e (Some t) p -> tells s p t.
Proof.
  intros (P & Af & F7 & F6 & F & FB) L N K E. unfold regular_w in E.
  refine (names_tells _ l s 8 s3 n e t p _ Af P F K E). apply names_end; [exact L | exact N | mute].
Qed.
Ltac code O := apply Z.eqb_eq in O; match type of O with ?x = _ => subst x end.
Lemma action_speaks s e t p : action_w s = Failed e (Some t) p -> tells s p t.
Proof.
  unfold action_w. intro E. apply bind_failed in E as [E|(b7 & s1 & X1 & E)]; [apply (mute_not _ _ _ _ _ _ names_bool E)|].
  apply bind_failed in E as [E|(b6 & s2 & X2 & E)]; [apply (mute_not _ _ _ _ _ _ names_bool E)|].
  apply bind_failed in E as [E|(op & s3 & X3 & E)]; [apply (mute_not _ _ _ _ _ _ (names_uint 6) E)|].
  pose proof (head_read s b7 s1 b6 s2 op s3 X1 X2 X3) as H.
  destruct (op =? 1) eqn:O1; [code O1; refine (regular_says _ _ _ s b7 b6 1 s3 e t p H _ dr_mute eq_refl E); locs|].
  destruct (op =? 4) eqn:O4; [code O4; refine (regular_says _ _ _ s b7 b6 4 s3 e t p H _ data_mute eq_refl E); locs|].
  destruct (op =? 9) eqn:O9; [code O9; refine (regular_says _ _ _ s b7 b6 9 s3 e t p H _ query_names eq_refl E); locs|].
  destruct (op =? 17) eqn:O17; [code O17; refine (regular_says _ _ _ s b7 b6 17 s3 e t p H _ fho_names eq_refl E); locs|].
  destruct (op =? 32) eqn:O32; [code O32; refine (regular_says _ _ _ s b7 b6 32 s3 e t p H _ data_mute eq_refl E); locs|].
  destruct (op =? 33) eqn:O33; [code O33; refine (regular_says _ _ _ s b7 b6 33 s3 e t p H _ fho_names eq_refl E); locs|].
  destruct (op =? 34) eqn:O34; [code O34; apply (status_says s b7 b6 s3 e t p H E)|].
  destruct (op =? 35) eqn:O35; [unfold tag_response_action_w in E; refine (mute_not _ _ _ _ _ _ _ E); mute|].
  destruct (op =? 50) eqn:O50; [code O50; apply (forward_says s b7 b6 s3 e t p H E)|].
  destruct (op =? 51) eqn:O51; [code O51; apply (indirect_says s b7 b6 s3 e t p H E)|].
  destruct (op =? 52) eqn:O52; [code O52; apply (tag_request_says s b7 b6 s3 e t p H E)|].
  destruct H as (P & A & F7 & F6 & F & FB). injection E as <- <- <-. apply (tells_first s _ 8); [exact P|]. apply te_action; [exact F|].
  unfold known_actions. intro I. cbn [In] in I. repeat (destruct I as [<-|I]; [discriminate|]). exact I.
Qed.
Lemma starts_trans s t u : starts s t -> starts t u -> starts s u.
Proof. intros H K. induction K as [|v a v' K IH E]; [exact H | apply (st_next s v a v' IH E)]. Qed.
Lemma action_starts s0 s a s' : starts s0 s -> action_w s = Done a s' -> starts s0 s'.
Proof. intros H E. apply (st_next s0 s a s' H). rewrite <- (action_same s), E. reflexivity. Qed.
Lemma bytepos_done s x s' : wread bytepos s = Done x s' -> s' = s.
Proof. unfold wread, bytepos. destruct (_ =? 0); [|discriminate]. intros [= _ <-]. reflexivity. Qed.
Lemma actions_speaks fuel : forall a b s e t p, actions_w fuel a b s = Failed e (Some t) p -> tells s p t.
Proof.
  induction fuel as [|f IH]; intros a b s e t p E; cbn [actions_w] in E; [discriminate|]. destruct (a <? b); [|discriminate].
  apply bind_failed in E as [E|(x & s1 & X1 & E)]; [apply (mute_not _ _ _ _ _ _ (names_read bytepos) E)|]. apply bytepos_done in X1. subst s1.
  apply bind_failed in E as [E|(y & s2 & X2 & E)]; [apply (action_speaks _ _ _ _ E)|].
  apply bind_failed in E as [E|(z & s3 & X3 & E)]; [apply (mute_not _ _ _ _ _ _ (names_read bytepos) E)|]. apply bytepos_done in X3. subst s3.
  apply bind_failed in E as [E|(l & s4 & X4 & E)]; [|discriminate]. destruct (IH _ _ _ _ _ _ E) as (u & k & H & R).
  exists u, k. split; [apply (starts_trans s s2); [apply (action_starts _ _ _ _ (st_first s) X2) | exact H] | exact R].
Qed.
Lemma actions_cover_len fuel : forall a b s l s', actions_w fuel a b s = Done l s' -> b <= a \/ 8 * (b - a) <= Z.of_nat (pos s') - Z.of_nat (pos s).
Proof.
  induction fuel as [|f IH]; intros a b s l s' E; cbn [actions_w] in E; [discriminate|].
  destruct (a <? b) eqn:L; [|left; apply Z.ltb_ge; exact L]. right. apply Z.ltb_lt in L. unfold wbind in E.
  destruct (wread bytepos s) as [x s1|] eqn:X1; [|discriminate]. destruct (action_w s1) as [y s2|] eqn:X2; [|discriminate].
  destruct (wread bytepos s2) as [z s3|] eqn:X3; [|discriminate]. destruct (actions_w f (a + (z - x)) b s3) as [l' s4|] eqn:X4; [|discriminate].
  injection E as _ <-. unfold wread, bytepos in X1, X3.
  destruct (Z.of_nat (pos s) mod 8 =? 0) eqn:M1; [|discriminate]. injection X1 as <- <-.
  destruct (Z.of_nat (pos s2) mod 8 =? 0) eqn:M2; [|discriminate]. injection X3 as <- <-.
  apply Z.eqb_eq in M1, M2. pose proof (Z.div_mod (Z.of_nat (pos s)) 8 ltac:(lia)). pose proof (Z.div_mod (Z.of_nat (pos s2)) 8 ltac:(lia)).
  pose proof (done_after _ s2 l' s4 (actions_local f _ b) X4) as (u & _ & PU).
  destruct (IH _ _ _ _ _ X4); lia.
Qed.
Lemma bind_done {A B} (w : W A) (f : A -> W B) s b s' : wbind w f s = Done b s' -> exists a s1, w s = Done a s1 /\ f a s1 = Done b s'.
Proof. unfold wbind. destruct (w s) as [a s1|]; [|discriminate]. intro E. exists a, s1. split; [reflexivity | exact E]. Qed.
Lemma lift_done {A} (r : res A) s a s' : wlift r s = Done a s' -> r = Ok a /\ s' = s.
Proof. unfold wlift. destruct r; [|discriminate]. intros [= -> <-]. split; reflexivity. Qed.
Definition kind_at (s : stream) (a : Action) : Prop :=
  match a_kind a with
  | StatusAct 1 => first_byte s (64 + 34)
  | TagReqAct _ => operation s 52
  | TagRespAct _ _ => operation s 35
  | _ => True
  end.
Ltac made := match goal with E : _ _ = Done (Some ?a) _ |- _ =>
    unfold regular_w, tag_response_action_w, forward_action_w, indirect_forward_action_w, tag_request_action_w in E;
    repeat match type of E with (if ?x then _ else _) _ = _ => destruct x; [discriminate E|] | wbind _ _ _ = _ => let M := fresh "M" in apply bind_done in E as (? & ? & M & E) end;
    injection E as -> _;
    match goal with M : wlift (mk_action _ _) _ = Done a _ |- _ => apply lift_done in M as [M _]; apply LParsed.mk_action_inv in M; subst a end; cbn [a_kind] end.
Lemma action_kind s a s' : action_w s = Done (Some a) s' -> kind_at s a /\ (pos s < pos s')%nat.
Proof.
  unfold action_w. intro E. apply bind_done in E as (b7 & s1 & X1 & E). apply bind_done in E as (b6 & s2 & X2 & E). apply bind_done in E as (op & s3 & X3 & E).
  pose proof (head_read s b7 s1 b6 s2 op s3 X1 X2 X3) as (P & A & F7 & F6 & F & FB).
  assert (Q : (pos s < pos s')%nat).
  { match type of E with ?w s3 = _ => assert (L : local w) by (unfold regular_w, status_action_w, forward_action_w, indirect_forward_action_w, tag_request_action_w, tag_response_action_w; locs) end. pose proof (done_after _ _ _ _ L E) as (u & _ & PU). lia. }
  split; [|exact Q]. clear Q. unfold kind_at.
  destruct (op =? 1); [made; exact Logic.I|]. destruct (op =? 4); [made; exact Logic.I|]. destruct (op =? 9); [made; exact Logic.I|].
  destruct (op =? 17); [made; exact Logic.I|]. destruct (op =? 32); [made; exact Logic.I|]. destruct (op =? 33); [made; exact Logic.I|].
  destruct (op =? 34) eqn:O34.
  - apply Z.eqb_eq in O34. subst op. unfold status_action_w in E. destruct b7; [discriminate|]. destruct b6; [|discriminate].
    destruct (a_kind a) as [| | |[|[| |]|]| |] eqn:K; try exact Logic.I; try exact FB; exfalso;
    apply bind_done in E as (i & s4 & _ & E); apply bind_done in E as (len & s5 & _ & E);
      (destruct (i =? 0); [discriminate|]); destruct (i =? 215); [|destruct (i =? 1); [|discriminate]| |destruct (i =? 1); [|discriminate]];
      try made; discriminate K.
  - destruct (op =? 35) eqn:O35; [apply Z.eqb_eq in O35; subst op; made; exact F|]. destruct (op =? 50); [made; exact Logic.I|]. destruct (op =? 51); [made; exact Logic.I|].
    destruct (op =? 52) eqn:O52; [apply Z.eqb_eq in O52; subst op; made; exact F|]. discriminate.
Qed.
Lemma text_twice fuel : forall a b s0 s l s' c t, starts s0 s -> actions_w fuel a b s = Done l s' -> command_text l c = Some t ->
  (c_status c <> None -> exists u, starts s0 u /\ (pos u < pos s)%nat /\ first_byte u (64 + 34)) ->
  (c_tag c <> None -> exists u n, starts s0 u /\ (pos u < pos s)%nat /\ operation u n /\ In n [35; 52]) -> told_twice s0 (pos s') t.
Proof.
  induction fuel as [|f IH]; intros a b s0 s l s' c t H E T CS CT; cbn [actions_w] in E; [discriminate|].
  destruct (a <? b); [|injection E as <- _; discriminate T].
  apply bind_done in E as (x & s1 & X1 & E). apply bytepos_done in X1. subst s1. apply bind_done in E as (y & s2 & X2 & E).
  apply bind_done in E as (z & s3 & X3 & E). apply bytepos_done in X3. subst s3. apply bind_done in E as (l' & s4 & X4 & E). injection E as <- <-.
  pose proof (action_starts _ _ _ _ H X2) as H2. pose proof (done_after _ _ _ _ (actions_local f _ b) X4) as (w & _ & PW).
  pose proof (done_after _ _ _ _ action_local X2) as (w2 & _ & PW2).
  assert (CS' : forall c', c_status c' = c_status c -> c_status c' <> None -> exists u, starts s0 u /\ (pos u < pos s2)%nat /\ first_byte u (64 + 34)).
  { intros c' -> N. destruct (CS N) as (u & U1 & U2 & U3). exists u. refine (conj U1 (conj _ U3)). lia. }
  assert (CT' : forall c', c_tag c' = c_tag c -> c_tag c' <> None -> exists u n, starts s0 u /\ (pos u < pos s2)%nat /\ operation u n /\ In n [35; 52]).
  { intros c' -> N. destruct (CT N) as (u & n & U1 & U2 & U3). exists u, n. refine (conj U1 (conj _ U3)). lia. }
  destruct y as [y|]; cbn [command_text] in T; [|apply (IH _ _ _ _ _ _ _ _ H2 X4 T (CS' c eq_refl) (CT' c eq_refl))].
  apply action_kind in X2 as (K & P2). unfold kind_at in K. unfold add_init in T.
  destruct (a_kind y) as [g r|r|v r|[|[| |]|]|r|e1 e2]; try (apply (IH _ _ _ _ _ _ _ _ H2 X4 T (CS' _ eq_refl) (CT' _ eq_refl))).
  - destruct (c_status c) as [st|] eqn:Q.
    + injection T as <-. destruct (CS ltac:(discriminate)) as (u & U1 & U2 & U3). apply (tw_status s0 _ u s); try assumption. lia.
    + apply (IH _ _ _ _ _ _ _ _ H2 X4 T); [|apply CT'; reflexivity]. intros _. exists s. auto.
  - destruct (c_tag c) as [st|] eqn:Q.
    + injection T as <-. destruct (CT ltac:(discriminate)) as (u & n & U1 & U2 & U3 & U4). apply (tw_request s0 _ u s n); try assumption. lia.
    + destruct (a_op y); cbn [operand_tag rbind] in T; try discriminate T;
      (apply (IH _ _ _ _ _ _ _ _ H2 X4 T); [apply CS'; reflexivity|]); intros _; exists s, 52; cbn [In]; auto 8.
  - destruct (c_tag c) as [st|] eqn:Q.
    + injection T as <-. destruct (CT ltac:(discriminate)) as (u & n & U1 & U2 & U3 & U4). apply (tw_response s0 _ u s n); try assumption. lia.
    + destruct (a_op y); cbn [operand_tag rbind] in T; try discriminate T;
      (apply (IH _ _ _ _ _ _ _ _ H2 X4 T); [apply CS'; reflexivity|]); intros _; exists s, 35; cbn [In]; auto 8.
Qed.
Lemma command_loop_text : forall l c bad e, command_loop l c bad = Err e -> e = ParseError -> command_text l c <> None.
Proof.
  induction l as [|[a|] l IH]; intros c bad e E P; cbn [command_loop] in E; [discriminate | | cbn [command_text]; apply (IH c true e E P)].
  cbn [command_text]. destruct (add_init c a) as [c'|e'] eqn:A; cbn [rbind] in E; [apply (IH c' bad e E P)|]. injection E as ->. subst e.
  unfold add_init in A. destruct (a_kind a) as [| | |[|[| |]|]| |]; discriminate.
Qed.
Lemma alp_says n s e t p : alp_where n s = Failed e (Some t) p ->
  tells s p t \/ (e = ParseError /\ told_twice s p t /\ 8 * n <= Z.of_nat p - Z.of_nat (pos s)).
Proof.
  unfold alp_where. intro E. unfold wbind in E.
  destruct ((if n =? 0 then wret [] else actions_w (S (List.length (bits s))) 0 n) s) as [l s'|e' t' p'] eqn:X.
  - right. destruct (mk_command 0 l false None true) as [c|e'] eqn:M; [discriminate|]. injection E as -> T <-.
    split; [|split; [destruct (n =? 0); [injection X as <- _; discriminate T|];
      apply (text_twice _ _ _ _ _ _ _ _ _ (st_first s) X T); intro Q; exfalso; apply Q; reflexivity|]].
    + unfold mk_command in M. destruct (command_loop l (mkCommand [] None false None true false None) false) as [[c bad]|e'] eqn:L; cbn [rbind] in M.
      * exfalso. clear -L T. revert L T. generalize (mkCommand [] None false None true false None) as c0. generalize false as b0. induction l as [|[a|] l IH]; intros b0 c0 L T; cbn [command_loop command_text] in *; [discriminate | | apply (IH _ _ L T)].
        destruct (add_init c0 a) as [c'|e']; cbn [rbind] in L; [apply (IH _ _ L T) | discriminate].
      * injection M as ->. clear -L T. revert L T. generalize (mkCommand [] None false None true false None) as c0. generalize false as b0. induction l as [|[a|] l IH]; intros b0 c0 L T; cbn [command_loop command_text] in *; [discriminate | | apply (IH _ _ L T)].
        destruct (add_init c0 a) as [c'|e']; cbn [rbind] in L; [apply (IH _ _ L T)|]. injection L as ->. destruct e; try discriminate. reflexivity.
    + destruct (n =? 0) eqn:N0.
      * injection X as _ <-. lia.
      * destruct (actions_cover_len _ _ _ _ _ _ X) as [Y|Y]; [|lia].
        pose proof (done_after _ s l s' (actions_local _ 0 n) X) as (u & _ & PU). lia.
  - injection E as -> -> ->. left. destruct (n =? 0); [discriminate | apply (actions_speaks _ _ _ _ _ _ _ X)].
Qed.
