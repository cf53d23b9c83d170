(** Lemmas for C103: the parser that keeps the position is the parser of MAlp. *)
From Coq Require Import String.
From Verif Require Import Bits MBase MCrc MCt MPhy MSp MFs MOperands MAlp MSerial MReport MCause MWhere SWhere.
From Coq Require Import Lia.
Close Scope string_scope.
Open Scope list_scope.
Open Scope Z_scope.

Definition erase {A} (o : Out A) : res (A * stream) :=
  match o with Done a s => Ok (a, s) | Failed e _ _ => Err e end.
Definition same {A} (w : W A) (p : P A) : Prop := forall s, erase (w s) = p s.
Lemma same_ret {A} (a : A) : same (wret a) (ret a).
Proof. intro s. reflexivity. Qed.
Lemma same_raise {A} e t : same (@wraise A e t) (raise e).
Proof. intro s. reflexivity. Qed.
Lemma same_lift {A} (r : res A) : same (wlift r) (lift r).
Proof. intro s. destruct r; reflexivity. Qed.
Lemma same_read {A} (p : P A) : same (wread p) p.
Proof. intro s. unfold wread. destruct (p s) as [[a s']|e]; reflexivity. Qed.
Lemma same_bind {A B} (w : W A) (p : P A) (f : A -> W B) (g : A -> P B) :
  same w p -> (forall a, same (f a) (g a)) -> same (wbind w f) (bindp p g).
Proof.
  intros H K s. unfold wbind, bindp. specialize (H s). destruct (w s) as [a s'|e t q]; cbn [erase] in H; rewrite <- H; [apply K | reflexivity].
Qed.
Lemma same_enum {A B} n c (of : Z -> res A) (f : A -> W B) (g : A -> P B) :
  (forall a, same (f a) (g a)) -> same (wbind (wenum n c of) f) (bindp (read_uint n) (fun v => bindp (lift (of v)) g)).
Proof.
  intros K s. unfold wenum, wuint, wread, bindp, lift. unfold wbind. destruct (read_uint n s) as [[v s']|e]; [|reflexivity].
  destruct (of v) as [a|e]; [apply K | reflexivity].
Qed.
Lemma same_uint n : same (wuint n) (read_uint n). Proof. apply same_read. Qed.
Lemma same_pad n : same (wpad n) (read_pad n). Proof. apply same_read. Qed.
Lemma same_bool : same wbool read_bool. Proof. apply same_read. Qed.
#[export] Hint Resolve same_ret same_raise same_lift same_read same_uint same_pad same_bool : same.
Ltac same1 :=
  match goal with
  | |- forall _, _ => intro
  | |- same (wbind (wenum _ _ _) _) _ => apply same_enum
  | |- same (wbind _ _) _ => apply same_bind
  | |- same (match ?x with _ => _ end) _ => destruct x
  | |- same (if ?x then _ else _) _ => destruct x
  | |- _ => solve [auto with same]
  end.
Ltac sames := repeat same1.
Lemma length_same : same length_w length_parse. Proof. unfold length_w, length_parse. sames. Qed.
#[export] Hint Resolve length_same : same.
Lemma offset_same : same offset_w offset_parse. Proof. unfold offset_w, offset_parse. sames. Qed.
#[export] Hint Resolve offset_same : same.
Lemma data_same : same data_w data_parse. Proof. unfold data_w, data_parse. sames. Qed.
Lemma dr_same : same dr_w dr_parse. Proof. unfold dr_w, dr_parse. sames. Qed.
Lemma perm_same : same perm_w perm_parse. Proof. unfold perm_w, perm_parse. sames. Qed.
Lemma prop_same : same prop_w prop_parse. Proof. unfold prop_w, prop_parse. sames. Qed.
#[export] Hint Resolve data_same dr_same perm_same prop_same : same.
Lemma fh_same : same fh_w fh_parse. Proof. unfold fh_w, fh_parse. sames. Qed.
#[export] Hint Resolve fh_same : same.
Lemma fho_same : same fho_w fho_parse. Proof. unfold fho_w, fho_parse. sames. Qed.
Lemma arith_same : same arith_w arith_parse. Proof. unfold arith_w, arith_parse. sames. Qed.
#[export] Hint Resolve fho_same arith_same : same.
Lemma query_same : same query_w query_parse. Proof. unfold query_w, query_parse. sames. Qed.
Lemma abp_same : same abp_w abp_parse. Proof. unfold abp_w, abp_parse. sames. Qed.
Lemma otaa_same : same otaa_w otaa_parse. Proof. unfold otaa_w, otaa_parse. sames. Qed.
Lemma ct_same : same ct_w ct_parse. Proof. unfold ct_w, ct_parse. sames. Qed.
Lemma addr_same : same addr_w addr_parse. Proof. unfold addr_w, addr_parse. sames. Qed.
Lemma qos_same : same qos_w qos_parse. Proof. unfold qos_w, qos_parse. sames. Qed.
Lemma ch_same : same ch_w ch_parse. Proof. unfold ch_w, ch_parse. sames. Qed.
#[export] Hint Resolve query_same abp_same otaa_same ct_same addr_same qos_same ch_same : same.
Lemma conf_same : same conf_w conf_parse. Proof. unfold conf_w, conf_parse. sames. Qed.
Lemma cid_same : same cid_w cid_parse. Proof. unfold cid_w, cid_parse. sames. Qed.
#[export] Hint Resolve conf_same cid_same : same.
Lemma status_same : same status_w status_parse. Proof. unfold status_w, status_parse. sames. Qed.
#[export] Hint Resolve status_same : same.
Lemma status_action_same b7 b6 : same (status_action_w b7 b6) (parse_status_action b7 b6).
Proof. unfold status_action_w, parse_status_action. sames. Qed.
Lemma forward_action_same b7 b6 : same (forward_action_w b7 b6) (parse_forward_action b7 b6).
Proof. unfold forward_action_w, parse_forward_action. sames. Qed.
Lemma indirect_forward_action_same b7 b6 : same (indirect_forward_action_w b7 b6) (parse_indirect_forward_action b7 b6).
Proof. unfold indirect_forward_action_w, parse_indirect_forward_action. sames. Qed.
Lemma tag_request_action_same b7 b6 : same (tag_request_action_w b7 b6) (parse_tag_request_action b7 b6).
Proof. unfold tag_request_action_w, parse_tag_request_action. sames. Qed.
Lemma tag_response_action_same b7 b6 : same (tag_response_action_w b7 b6) (parse_tag_response_action b7 b6).
Proof. unfold tag_response_action_w, parse_tag_response_action. sames. Qed.
Lemma regular_same {A} b7 b6 (w : W A) p op : same w p -> same (regular_w b7 b6 w op) (parse_regular b7 b6 p op).
Proof. intro H. unfold regular_w, parse_regular. sames. Qed.
#[export] Hint Resolve status_action_same forward_action_same indirect_forward_action_same tag_request_action_same
  tag_response_action_same regular_same : same.
Lemma action_same : same action_w parse_action.
Proof. unfold action_w, parse_action. sames. Qed.
#[export] Hint Resolve action_same : same.
Lemma actions_same fuel : forall a b, same (actions_w fuel a b) (parse_actions fuel a b).
Proof. induction fuel as [|f IH]; intros a b; cbn [actions_w parse_actions]; sames. Qed.
Lemma alp_same n : same (alp_where n) (alp_parse n).
Proof.
  intro s. unfold alp_where, alp_parse. apply same_bind.
  - destruct (n =? 0); [apply same_ret | apply actions_same].
  - intros l t. unfold lift. destruct (mk_command 0 l false None true); reflexivity.
Qed.

(** ** What was read decides *)
Definition short {A} (o : Out A) : Prop := exists e t p, o = Failed e t p /\ asks_for_more e.
(** [u] is what was read, and leads to [o] whatever follows *)
Definition decided {A} (w : W A) (s : stream) (u : list bool) (o : list bool -> Out A) : Prop :=
  (forall r, w (St (pos s) (u ++ r)) = o r) /\ (forall k, (k < length u)%nat -> short (w (St (pos s) (firstn k u)))).
Definition local {A} (w : W A) : Prop := forall s,
  match w s with
  | Done a s' => exists u, bits s = u ++ bits s' /\ pos s' = (pos s + length u)%nat
                 /\ decided w s u (fun r => Done a (St (pos s') r))
  | Failed e t p => asks_for_more e \/ exists u r, bits s = u ++ r /\ p = (pos s + length u)%nat
                    /\ decided w s u (fun _ => Failed e t p)
  end.
Lemma decided_nil {A} (w : W A) s o : (forall r, w (St (pos s) r) = o r) -> decided w s [] o.
Proof. intro H. split; [exact H | intros k K; inversion K]. Qed.
Lemma local_ret {A} (a : A) : local (wret a).
Proof. intros [p b]. exists []. cbn. rewrite Nat.add_0_r. repeat split; try (intros k K; inversion K). Qed.
Lemma local_raise {A} e t : local (@wraise A e t).
Proof. intros [p b]. right. exists [], b. cbn. rewrite Nat.add_0_r. repeat split; try (intros k K; inversion K). Qed.
Lemma local_lift {A} (r : res A) : local (wlift r).
Proof. destruct r; [apply local_ret | apply local_raise]. Qed.
Lemma local_bytepos : local (wread bytepos).
Proof.
  intros [p b]. unfold wread, bytepos. cbn [pos bits].
  destruct (Z.of_nat p mod 8 =? 0) eqn:E.
  - exists []. rewrite Nat.add_0_r. split; [reflexivity|]. split; [reflexivity|]. apply decided_nil. intro r. cbn [pos]. rewrite E. reflexivity.
  - right. exists [], b. rewrite Nat.add_0_r. split; [reflexivity|]. split; [reflexivity|]. apply decided_nil. intro r. cbn [pos]. rewrite E. reflexivity.
Qed.
Lemma local_uint n : local (wuint n).
Proof.
  intros [p b]. unfold wuint, wread, read_uint. cbn [pos bits].
  destruct (Nat.ltb (length b) n) eqn:E; [left; left; reflexivity|].
  apply Nat.ltb_ge in E. assert (L : length (firstn n b) = n) by (rewrite firstn_length; lia).
  exists (firstn n b). cbn [pos bits]. rewrite L, firstn_skipn. split; [reflexivity|]. split; [reflexivity|]. split.
  - intro r. cbn [pos bits]. rewrite app_length, L. replace (Nat.ltb (n + length r) n) with false by (symmetry; apply Nat.ltb_ge; lia).
    rewrite firstn_app, skipn_app, L, Nat.sub_diag, firstn_O, app_nil_r, firstn_firstn, Nat.min_id.
    rewrite skipn_all2 by lia. reflexivity.
  - intros k K. rewrite L in K. exists ReadError, None, p. cbn [pos bits]. rewrite firstn_firstn, firstn_length.
    replace (Nat.ltb (Nat.min (Nat.min k n) (length b)) n) with true by (symmetry; apply Nat.ltb_lt; lia). split; [reflexivity | left; reflexivity].
Qed.
Lemma local_bool : local wbool.
Proof.
  intros [p [|x b]]; unfold wbool, wread, read_bool; cbn [pos bits]; [left; right; reflexivity|].
  exists [x]. split; [reflexivity|]. split; [reflexivity|]. split; [reflexivity|].
  intros k K. cbn in K. assert (k = 0%nat) as -> by lia. exists BoolEof, None, p. split; [reflexivity | right; reflexivity].
Qed.
Lemma local_bytes n : local (wread (read_bytes n)).
Proof.
  intros [p b]. unfold wread, read_bytes. cbn [pos bits].
  destruct (zlen b <? 8 * n) eqn:E; [left; left; reflexivity|].
  apply Z.ltb_ge in E. set (m := Z.to_nat (8 * n)). assert (M : (m <= length b)%nat) by (unfold zlen in E; lia).
  assert (L : length (firstn m b) = m) by (rewrite firstn_length; lia).
  exists (firstn m b). cbn [pos bits]. rewrite L, firstn_skipn. split; [reflexivity|]. split; [reflexivity|]. split.
  - intro r. cbn [pos bits]. unfold zlen. rewrite app_length, L. replace (Z.of_nat (m + length r) <? 8 * n) with false by (symmetry; apply Z.ltb_ge; unfold m; lia).
    fold m. rewrite firstn_app, skipn_app, L, Nat.sub_diag, firstn_O, app_nil_r, firstn_firstn, Nat.min_id.
    rewrite skipn_all2 by lia. reflexivity.
  - intros k K. rewrite L in K. exists ReadError, None, p. cbn [pos bits]. unfold zlen. rewrite firstn_firstn, firstn_length.
    replace (Z.of_nat (Nat.min (Nat.min k m) (length b)) <? 8 * n) with true by (symmetry; apply Z.ltb_lt; unfold m in *; lia). split; [reflexivity | left; reflexivity].
Qed.
Lemma local_bind {A B} (w : W A) (f : A -> W B) : local w -> (forall a, local (f a)) -> local (wbind w f).
Proof.
  intros H K s. unfold wbind at 1. specialize (H s). destruct (w s) as [a s1|e t p] eqn:E.
  - destruct H as (u & B1 & P1 & D1 & S1). specialize (K a s1). destruct (f a s1) as [b s2|e t p] eqn:F.
    + destruct K as (v & B2 & P2 & D2 & S2). exists (u ++ v). rewrite app_length, <- app_assoc, <- B2, B1. split; [reflexivity|]. split; [lia|]. split.
      * intro r. unfold wbind. rewrite <- app_assoc, D1, D2. reflexivity.
      * intros k Hk. rewrite app_length in Hk. destruct (Nat.lt_ge_cases k (length u)) as [L|L].
        { rewrite firstn_app. replace (k - length u)%nat with 0%nat by lia. rewrite firstn_O, app_nil_r. destruct (S1 k L) as (e & t & q & X & M).
          exists e, t, q. split; [unfold wbind; rewrite X; reflexivity | exact M]. }
        { rewrite firstn_app, firstn_all2 by lia. unfold wbind. rewrite D1. apply S2. lia. }
    + destruct K as [K|(v & r0 & B2 & P2 & D2 & S2)]; [left; exact K|]. right. exists (u ++ v), r0. rewrite app_length, <- app_assoc, <- B2, B1. split; [reflexivity|]. split; [lia|]. split.
      * intro r. unfold wbind. rewrite <- app_assoc, D1, D2. reflexivity.
      * intros k Hk. rewrite app_length in Hk. destruct (Nat.lt_ge_cases k (length u)) as [L|L].
        { rewrite firstn_app. replace (k - length u)%nat with 0%nat by lia. rewrite firstn_O, app_nil_r. destruct (S1 k L) as (e' & t' & q & X & M).
          exists e', t', q. split; [unfold wbind; rewrite X; reflexivity | exact M]. }
        { rewrite firstn_app, firstn_all2 by lia. unfold wbind. rewrite D1. apply S2. lia. }
  - destruct H as [H|(u & r0 & B1 & P1 & D1 & S1)]; [left; exact H|]. right. exists u, r0. split; [exact B1|]. split; [exact P1|]. split.
    + intro r. unfold wbind. rewrite D1. reflexivity.
    + intros k Hk. destruct (S1 k Hk) as (e' & t' & q & X & M). exists e', t', q. split; [unfold wbind; rewrite X; reflexivity | exact M].
Qed.
Lemma local_ext {A} (w v : W A) : (forall s, w s = v s) -> local v -> local w.
Proof.
  intros E H s. rewrite E. specialize (H s). destruct (v s) as [a s'|e t p].
  - destruct H as (u & X & Y & D & S). exists u. refine (conj X (conj Y (conj _ _))); [intro r; rewrite E; apply D | intros k K; rewrite E; apply S, K].
  - destruct H as [H|(u & r0 & X & Y & D & S)]; [left; exact H|]. right. exists u, r0. refine (conj X (conj Y (conj _ _))); [intro r; rewrite E; apply D | intros k K; rewrite E; apply S, K].
Qed.
Lemma local_pad n : local (wpad n).
Proof.
  apply (local_ext _ (wbind (wuint n) (fun _ => wret tt))).
  - intro s. unfold wpad, wread, read_pad, bindp, wbind, wuint, wread. destruct (read_uint n s) as [[v s']|e]; reflexivity.
  - apply local_bind; [apply local_uint | intro; apply local_ret].
Qed.
Lemma local_int n : local (wread (read_int n)).
Proof.
  apply (local_ext _ (wbind (wuint n) (fun u => wret (if u <? 2 ^ (Z.of_nat n - 1) then u else u - 2 ^ Z.of_nat n)))).
  - intro s. unfold wread, read_int, bindp, wbind, wuint, wread. destruct (read_uint n s) as [[v s']|e]; reflexivity.
  - apply local_bind; [apply local_uint | intro; apply local_ret].
Qed.
Lemma local_enum {A} n c (of : Z -> res A) : local (wenum n c of).
Proof. apply local_bind; [apply local_uint|]. intro v. destruct (of v); [apply local_ret | apply local_raise]. Qed.
#[export] Hint Resolve local_ret local_raise local_lift local_bytepos local_uint local_bool local_bytes local_pad local_int local_enum : loc.
Ltac loc1 :=
  match goal with
  | |- forall _, _ => intro
  | |- local (wenum _ _ _) => apply local_enum
  | |- local (wbind _ _) => apply local_bind
  | |- local (match ?x with _ => _ end) => destruct x
  | |- local (if ?x then _ else _) => destruct x
  | |- local (let x := _ in _) => cbv zeta
  | |- _ => solve [auto with loc]
  end.
Ltac locs := repeat loc1.
Lemma length_local : local length_w. Proof. unfold length_w. locs. Qed.
#[export] Hint Resolve length_local : loc.
Lemma offset_local : local offset_w. Proof. unfold offset_w. locs. Qed.
#[export] Hint Resolve offset_local : loc.
Lemma data_local : local data_w. Proof. unfold data_w. locs. Qed.
Lemma dr_local : local dr_w. Proof. unfold dr_w. locs. Qed.
Lemma perm_local : local perm_w. Proof. unfold perm_w. locs. Qed.
Lemma prop_local : local prop_w. Proof. unfold prop_w. locs. Qed.
#[export] Hint Resolve data_local dr_local perm_local prop_local : loc.
Lemma fh_local : local fh_w. Proof. unfold fh_w. locs. Qed.
#[export] Hint Resolve fh_local : loc.
Lemma fho_local : local fho_w. Proof. unfold fho_w. locs. Qed.
Lemma arith_local : local arith_w. Proof. unfold arith_w. locs. Qed.
#[export] Hint Resolve fho_local arith_local : loc.
Lemma query_local : local query_w. Proof. unfold query_w. locs. Qed.
Lemma abp_local : local abp_w. Proof. unfold abp_w. locs. Qed.
Lemma otaa_local : local otaa_w. Proof. unfold otaa_w. locs. Qed.
Lemma ct_local : local ct_w. Proof. unfold ct_w. locs. Qed.
Lemma addr_local : local addr_w. Proof. unfold addr_w. locs. Qed.
Lemma qos_local : local qos_w. Proof. unfold qos_w. locs. Qed.
Lemma ch_local : local ch_w. Proof. unfold ch_w. locs. Qed.
#[export] Hint Resolve query_local abp_local otaa_local ct_local addr_local qos_local ch_local : loc.
Lemma conf_local : local conf_w. Proof. unfold conf_w. locs. Qed.
Lemma cid_local : local cid_w. Proof. unfold cid_w. locs. Qed.
#[export] Hint Resolve conf_local cid_local : loc.
Lemma status_local : local status_w. Proof. unfold status_w. locs. Qed.
#[export] Hint Resolve status_local : loc.
Lemma action_local : local action_w.
Proof.
  unfold action_w, regular_w, status_action_w, forward_action_w, indirect_forward_action_w, tag_request_action_w, tag_response_action_w. locs.
Qed.
#[export] Hint Resolve action_local : loc.
Lemma actions_local fuel : forall a b, local (actions_w fuel a b).
Proof. induction fuel as [|f IH]; intros a b; cbn [actions_w]; locs. Qed.
