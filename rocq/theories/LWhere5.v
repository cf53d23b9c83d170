(** Lemmas for C103: when there is no text. *)
From Coq Require Import String.
From Verif Require Import LBits LTypes LCt LParsed.
From Verif Require Import Bits MBase MCrc MCt MPhy MSp MFs MOperands MAlp MSerial MReport MCause MWhere SWhere LTotal LTags LWhere LWhere2 LWhere3 LWhere4.
From Coq Require Import Lia.
Close Scope string_scope.
Open Scope list_scope.
Open Scope Z_scope.

Definition told (e : exn) : Prop := asks_for_more e \/ e = AssertNoMsg.
Definition sure {A} (w : W A) : Prop := forall s e p, w s = Failed e None p -> told e.
Lemma done_post {A} (w : W A) p R s a s' : same w p -> post R p -> w s = Done a s' -> R a.
Proof. intros S H E. apply (H s a s'). rewrite <- (S s), E. reflexivity. Qed.
Lemma sure_bind {A B} (R : A -> Prop) (w : W A) p (f : A -> W B) : same w p -> post R p -> sure w -> (forall a, R a -> sure (f a)) -> sure (wbind w f).
Proof.
  intros S H K F s e q E. unfold wbind in E. destruct (w s) as [a s'|e' t' q'] eqn:X.
  - apply (F a (done_post w p R s a s' S H X) s' e q E).
  - injection E as -> -> ->. apply (K s e q X).
Qed.
Lemma sure_any {A B} (w : W A) (f : A -> W B) : sure w -> (forall a, sure (f a)) -> sure (wbind w f).
Proof.
  intros K F s e q E. unfold wbind in E. destruct (w s) as [a s'|e' t' q'] eqn:X; [apply (F a s' e q E)|]. injection E as -> -> ->. apply (K s e q X).
Qed.
Lemma sure_ret {A} (a : A) : sure (wret a). Proof. intros s e p E. discriminate. Qed.
Lemma sure_assert {A} : sure (@wraise A AssertNoMsg None). Proof. intros s e p E. injection E as <- _. right. reflexivity. Qed.
Lemma sure_said {A} e t : sure (@wraise A e (Some t)). Proof. intros s e' p E. discriminate. Qed.
Lemma sure_lift {A} (r : res A) : (exists x, r = Ok x) -> sure (wlift r).
Proof. intros (x & ->). apply sure_ret. Qed.
Lemma sure_val {A} b (x : A) : b = true -> sure (wlift (validated b x)).
Proof. intros ->. apply sure_ret. Qed.
Lemma sure_uint n : sure (wuint n).
Proof. intros s e p E. unfold wuint, wread, read_uint in E. destruct (Nat.ltb _ _); [|discriminate]. injection E as <- _. left. left. reflexivity. Qed.
Lemma sure_pad n : sure (wpad n).
Proof. intros s e p E. unfold wpad, wread, read_pad, bindp, read_uint, ret in E. destruct (Nat.ltb _ _); [|discriminate]. injection E as <- _. left. left. reflexivity. Qed.
Lemma sure_int n : sure (wread (read_int n)).
Proof. intros s e p E. unfold wread, read_int, bindp, read_uint, ret in E. destruct (Nat.ltb _ _); [|discriminate]. injection E as <- _. left. left. reflexivity. Qed.
Lemma sure_bool : sure wbool.
Proof. intros s e p E. unfold wbool, wread, read_bool in E. destruct (bits s); [|discriminate]. injection E as <- _. left. right. reflexivity. Qed.
Lemma sure_bytes n : sure (wread (read_bytes n)).
Proof. intros s e p E. unfold wread, read_bytes in E. destruct (_ <? _); [|discriminate]. injection E as <- _. left. left. reflexivity. Qed.
Lemma sure_enum {A} n c (of : Z -> res A) : sure (wenum n c of).
Proof. unfold wenum. apply sure_any; [apply sure_uint|]. intro v. destruct (of v); [apply sure_ret | apply sure_said]. Qed.
#[export] Hint Resolve sure_ret sure_assert sure_said sure_uint sure_pad sure_int sure_bool sure_bytes sure_enum : sure.
Lemma sure_num {B} n (f : Z -> W B) : (forall v, 0 <= v < 2 ^ Z.of_nat n -> sure (f v)) -> sure (wbind (wuint n) f).
Proof. intro H. apply (sure_bind (fun v => 0 <= v < 2 ^ Z.of_nat n) _ (read_uint n)); [apply same_uint | apply post_uint | apply sure_uint | exact H]. Qed.
Ltac sure1 :=
  match goal with
  | |- sure (wbind (wuint _) _) => apply sure_num; intros ? ?
  | |- sure (wbind _ _) => apply sure_any; [|intro]
  | |- sure (match ?x with _ => _ end) => destruct x
  | |- sure (if ?x then _ else _) => destruct x
  | |- sure (let x := _ in _) => cbv zeta
  | |- _ => solve [auto with sure]
  end.
Ltac sures := repeat sure1.
Lemma length_sure : sure length_w.
Proof.
  unfold length_w. apply sure_num; intros k Hk. apply sure_num; intros v Hv. apply sure_val.
  assert (k = 0 \/ k = 1 \/ k = 2 \/ k = 3) as [ -> | [ -> | [ -> | -> ]]] by (cbn in Hk; lia); cbn in Hv; unfold in_range; lia.
Qed.
#[export] Hint Resolve length_sure : sure.
Lemma offset_sure : sure offset_w.
Proof. unfold offset_w. apply sure_num; intros k Hk. apply sure_any; [apply length_sure|]. intro l. apply sure_val. cbn in Hk. unfold is_BYTE, in_range. lia. Qed.
#[export] Hint Resolve offset_sure : sure.
Lemma mk_length_ok v : 0 <= v <= 1073741823 -> mk_length v = Ok (mkLength v).
Proof. intro H. unfold mk_length, validated, in_range. replace ((0 <=? v) && (v <=? 1073741823)) with true by lia. reflexivity. Qed.
Lemma data_sure : sure data_w.
Proof.
  unfold data_w. apply sure_any; [apply offset_sure|]. intro o.
  apply (sure_bind len_wf _ length_parse); [apply length_same | apply post_length | apply length_sure|]. intros l Hl. unfold len_wf, len_max in Hl.
  apply (sure_bind (fun x => zlen x = len_value l /\ Forall is_byte x) _ (read_bytes (len_value l))); [apply same_read | apply post_bytes; lia | apply sure_bytes|].
  intros bs (Z1 & F). unfold mk_data. rewrite mk_length_ok by lia. cbn [rbind]. apply sure_val. apply LAlp.forallb_byte. exact F.
Qed.
Lemma dr_sure : sure dr_w.
Proof.
  unfold dr_w. apply sure_any; [apply offset_sure|]. intro o.
  apply (sure_bind len_wf _ length_parse); [apply length_same | apply post_length | apply length_sure|]. intros l Hl. unfold len_wf, len_max in Hl.
  unfold mk_data_request. rewrite mk_length_ok by lia. apply sure_ret.
Qed.
Lemma fh_sure : sure fh_w.
Proof.
  unfold fh_w. apply sure_any; [unfold perm_w; sures|]. intro. apply sure_any; [unfold prop_w; sures|]. intro.
  sures. apply sure_val. change (2 ^ Z.of_nat 8) with 256 in *. change (2 ^ Z.of_nat 32) with 4294967296 in *. unfold is_BYTE, in_range. lia.
Qed.
Lemma fho_sure : sure fho_w.
Proof. unfold fho_w. apply sure_num; intros k Hk. apply sure_any; [apply fh_sure|]. intro h. apply sure_val. cbn in Hk. unfold is_BYTE, in_range. lia. Qed.
#[export] Hint Resolve data_sure dr_sure fho_sure : sure.
Lemma query_sure : sure query_w.
Proof.
  unfold query_w. sure1; [sures|]. sure1; [sures|]. sure1; [sures|]. sure1; [sures|]. sure1; [unfold arith_w; sures|].
  apply (sure_bind len_wf _ length_parse); [apply length_same | apply post_length | apply length_sure|]. intros l Hl. unfold len_wf, len_max in Hl.
  apply (sure_bind (fun x => zlen x = len_value l /\ Forall is_byte x) _ (read_bytes (len_value l))); [apply same_read | apply post_bytes; lia | apply sure_bytes|].
  intros bs (Z1 & F). sure1; [sures|]. apply sure_val. apply LAlp.forallb_byte. exact F.
Qed.
Lemma ct_sure : sure ct_w.
Proof. unfold ct_w. sures. apply sure_val. change (2 ^ Z.of_nat 3) with 8 in *. change (2 ^ Z.of_nat 5) with 32 in *. unfold in_range. lia. Qed.
Lemma addr_sure : sure addr_w.
Proof.
  unfold addr_w. sure1; [sures|]. sure1; [sures|]. sure1; [sures|]. apply sure_num; intros cl Hcl. change (2 ^ Z.of_nat 8) with 256 in Hcl. cbv zeta.
  match goal with t : IdType |- _ => destruct t end; cbn [addr_id_length Nat.ltb Nat.leb].
  - intros s e p E. unfold wbind in E. destruct (wuint (1 * 8) s) as [v s'|e' t' p'] eqn:X; [|injection E as -> -> ->; apply (sure_uint _ _ _ _ X)].
    apply (done_post _ _ _ _ _ _ (same_uint (1 * 8)) (post_uint (1 * 8))) in X. change (2 ^ Z.of_nat (1 * 8)) with 256 in X. unfold wret in E at 1.
    destruct (ct_ceil_optimal v) as (c & C & _); [unfold ct_max; lia|]. rewrite C in E. unfold wlift in E at 1. unfold wret in E.
    unfold mk_addr, validated, addr_id_ok, is_BYTE, in_range in E. replace ((0 <=? cl) && (cl <=? 255)) with true in E by lia. discriminate.
  - intros s e p E. unfold wbind, wret in E. unfold mk_addr, validated, addr_id_ok, is_BYTE, in_range in E. replace ((0 <=? cl) && (cl <=? 255)) with true in E by lia. discriminate.
  - intros s e p E. unfold wbind, wret in E. destruct (wuint (8 * 8) s) as [v s'|e' t' p'] eqn:X; [|injection E as -> -> ->; apply (sure_uint _ _ _ _ X)].
    apply (done_post _ _ _ _ _ _ (same_uint (8 * 8)) (post_uint (8 * 8))) in X. change (2 ^ Z.of_nat (8 * 8)) with 18446744073709551616 in X.
    unfold mk_addr, validated, addr_id_ok, is_BYTE, in_range in E. replace ((0 <=? cl) && (cl <=? 255)) with true in E by lia.
    replace ((0 <=? v) && (v <=? 18446744073709551615)) with true in E by lia. discriminate.
  - intros s e p E. unfold wbind, wret in E. destruct (wuint (2 * 8) s) as [v s'|e' t' p'] eqn:X; [|injection E as -> -> ->; apply (sure_uint _ _ _ _ X)].
    apply (done_post _ _ _ _ _ _ (same_uint (2 * 8)) (post_uint (2 * 8))) in X. change (2 ^ Z.of_nat (2 * 8)) with 65536 in X.
    unfold mk_addr, validated, addr_id_ok, is_BYTE, in_range in E. replace ((0 <=? cl) && (cl <=? 255)) with true in E by lia.
    replace ((0 <=? v) && (v <=? 65535)) with true in E by lia. discriminate.
Qed.
#[export] Hint Resolve query_sure ct_sure addr_sure : sure.
Lemma conf_sure : sure conf_w.
Proof. unfold conf_w. apply sure_any; [unfold qos_w; sures | intro; sures]. Qed.
Lemma abp_sure : sure abp_w. Proof. unfold abp_w. sures. Qed.
Lemma otaa_sure : sure otaa_w. Proof. unfold otaa_w. sures. Qed.
Lemma cid_sure : sure cid_w.
Proof. unfold cid_w. apply sure_any; [unfold ch_w; sures | intro]. apply sure_num; intros v Hv. apply sure_val. change (2 ^ Z.of_nat 16) with 65536 in Hv. unfold in_range. lia. Qed.
#[export] Hint Resolve conf_sure abp_sure otaa_sure cid_sure : sure.
